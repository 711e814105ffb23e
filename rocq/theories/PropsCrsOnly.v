(** * The coordinate system of a GOCAD object only gives the direction of z (C158). *)
From Coq Require Import ZArith List Lia Bool Ascii String.
From Verif Require Import Base Text TextFacts GocadModel MeshModel TsModel Spec GocadFacts StreamFacts Grammar GrammarFacts DepthFacts.
From Verif Require Import WellModel VoModel SignsModel MlModel LsoModel StratiLso ExNum ExCheck PropsTsVs.
Import ListNotations.
Local Open Scope string_scope.
Local Open Scope list_scope.
Local Open Scope Z_scope.

(** ** Specification *)
(** Two texts that differ only by the coordinate system of the first object of a kind (it may be absent); both say elevations, or
    both say depths ([crs_text] is in Grammar.v). *)
Definition other_crs (kw : bytes) (text text' : bytes) : Prop :=
  exists pre first hs cs cs' rest name up,
    pending (open_text text) = pre ++ first :: hs ++ cs ++ rest /\ pending (open_text text') = pre ++ first :: hs ++ cs' ++ rest /\
    nl (open_text text') = nl (open_text text) /\
    Forall (starts_not kw) pre /\ starts kw first /\ header_text hs name /\ crs_text cs up /\ crs_text cs' up /\
    rest <> [] /\ not_next "GOCAD_ORIGINAL_COORDINATE_SYSTEM" rest.

(** ** Facts *)
Section Facts.
Context {F : Num} (c : CRS).
Definition crs_ts (ts : TSurf F) : TSurf F :=
  mkTSurf (t_offset ts) (t_name ts) c (t_props ts) (t_points ts) (t_triangles ts) (t_tri_off ts) (t_vert_off ts) (t_bstones ts) (t_borders ts) (t_values ts).
Definition crs_ec (e : ECurve F) : ECurve F := mkECurve (e_offset e) (e_name e) c (e_points e) (e_edges e).
Definition crs_vs (v : VSet F) : VSet F := mkVSet (v_offset v) (GocadModel.v_name v) c (v_props v) (v_points v) (v_values v).
Lemma vrtx_same d tokens : z_sign_positive c = z_sign_positive d -> vrtx_point F c tokens = vrtx_point F d tokens.
Proof. intros E. unfold vrtx_point. repeat (apply bind_congr; intros ?). unfold GocadModel.signed. now rewrite E. Qed.
Ltac go := repeat (rewrite rmap_bind; apply bind_congr; intros ?).
Lemma tface_line_same ts l : z_sign_positive c = z_sign_positive (t_crs ts) ->
  tface_line F (crs_ts ts) l = rmap (fun x => (crs_ts (fst x), snd x)) (tface_line F ts l).
Proof.
  destruct ts as [o n d h pts tris tro vo bst bor vals]. cbn [t_crs]. intros E. unfold tface_line. rewrite rmap_bind. apply bind_congr. intros k.
  cbv [crs_ts]. cbn [t_offset t_name t_crs t_props t_points t_triangles t_tri_off t_vert_off t_bstones t_borders t_values].
  destruct (is_vrtx k); [rewrite rmap_bind; apply bind_congr; intros ?; rewrite (vrtx_same d _ E); go; reflexivity|].
  destruct (is_atom k); [go; reflexivity|].
  do 5 (destruct (beq k _); [go; reflexivity|]). reflexivity.
Qed.
Lemma tfaces_loop_same ls : forall ts, z_sign_positive c = z_sign_positive (t_crs ts) ->
  tfaces_loop F (crs_ts ts) ls = rmap (fun x => (crs_ts (fst x), snd x)) (tfaces_loop F ts ls).
Proof.
  induction ls as [|l r IH]; intros ts E; [reflexivity|]. cbn [tfaces_loop]. rewrite tface_line_same by exact E. rewrite bind_rmap, rmap_bind.
  apply bind_ext. intros [ts' stop] Ht. cbn [fst snd]. destruct stop; [reflexivity|]. apply IH. apply tface_line_crs in Ht. congruence.
Qed.
Lemma iline_line_same ec l : z_sign_positive c = z_sign_positive (e_crs ec) ->
  iline_line F (crs_ec ec) l = rmap (fun x => (crs_ec (fst x), snd x)) (iline_line F ec l).
Proof.
  destruct ec as [o n d pts es]. cbn [e_crs]. intros E. unfold iline_line. rewrite rmap_bind. apply bind_congr. intros k.
  cbv [crs_ec]. cbn [e_offset e_name e_crs e_points e_edges].
  destruct (is_vrtx k); [rewrite rmap_bind; apply bind_congr; intros ?; rewrite (vrtx_same d _ E); go; reflexivity|].
  do 2 (destruct (beq k _); [go; reflexivity|]). reflexivity.
Qed.
Lemma ilines_loop_same ls : forall ec, z_sign_positive c = z_sign_positive (e_crs ec) ->
  ilines_loop F (crs_ec ec) ls = rmap (fun x => (crs_ec (fst x), snd x)) (ilines_loop F ec ls).
Proof.
  induction ls as [|l r IH]; intros ec E; [reflexivity|]. cbn [ilines_loop]. rewrite iline_line_same by exact E. rewrite bind_rmap, rmap_bind.
  apply bind_ext. intros [ec' stop] Ht. cbn [fst snd]. destruct stop; [reflexivity|]. apply IH. apply iline_line_crs in Ht. congruence.
Qed.
Lemma vset_line_same vs l : z_sign_positive c = z_sign_positive (v_crs vs) ->
  vset_line F (crs_vs vs) l = rmap (fun x => (crs_vs (fst x), snd x)) (vset_line F vs l).
Proof.
  destruct vs as [o n d h pts vals]. cbn [v_crs]. intros E. unfold vset_line. rewrite rmap_bind. apply bind_congr. intros k.
  cbv [crs_vs]. cbn [v_offset GocadModel.v_name v_crs v_props v_points v_values].
  destruct (beq k _); [reflexivity|]. destruct (negb _); [reflexivity|].
  rewrite rmap_bind; apply bind_congr; intros ?; rewrite (vrtx_same d _ E); go; reflexivity.
Qed.
Lemma vset_loop_same ls : forall vs, z_sign_positive c = z_sign_positive (v_crs vs) ->
  vset_loop F (crs_vs vs) ls = rmap (fun x => (crs_vs (fst x), snd x)) (vset_loop F vs ls).
Proof.
  induction ls as [|l r IH]; intros vs E; [reflexivity|]. cbn [vset_loop]. rewrite vset_line_same by exact E. rewrite bind_rmap, rmap_bind.
  apply bind_ext. intros [vs' stop] Ht. cbn [fst snd]. destruct stop; [reflexivity|]. apply IH. apply vset_line_crs in Ht. congruence.
Qed.
Lemma paths_same d ref ls : z_sign_positive c = z_sign_positive d -> forall m, paths_loop F c ref ls m = paths_loop F d ref ls m.
Proof.
  intros E. induction ls as [|l r IH]; intros m; cbn [paths_loop]; [reflexivity|]. destruct (starts_with l _); [|reflexivity].
  apply bind_congr. intros [[t0 t1] t2]. destruct ref as [[rx ry] rz]. unfold WellModel.signed. rewrite E. apply bind_congr. exact IH.
Qed.
Lemma lso_vertices_same d vp b ls : z_sign_positive c = z_sign_positive d -> forall sv line,
  lso_vertices F c vp sv line b ls = lso_vertices F d vp sv line b ls.
Proof.
  intros E. assert (V : forall sv line, lso_vertex F c vp sv line = lso_vertex F d vp sv line).
  { intros sv line. unfold lso_vertex. destruct (starts_with line _); [reflexivity|]. now rewrite (vrtx_same d _ E). }
  induction ls as [|l r IH]; intros sv line; cbn [lso_vertices]; rewrite V; [reflexivity|]. apply bind_congr. intros sv'. destruct (contains l _); [apply IH|reflexivity].
Qed.
End Facts.

Lemma stream_is s ls : pending s = ls -> s = mkStream ls (nl s).
Proof. destruct s; cbn. now intros ->. Qed.
(** Both texts come to the same lines after the coordinate system. *)
Lemma crs_step kw text text' : other_crs kw text text' -> exists first s s' s2 name c c', 
  goto_if kw (open_text text) = (Some first, s) /\ goto_if kw (open_text text') = (Some first, s') /\
  (exists t, read_header s = Ok (name, t) /\ read_CRS t = Ok (c, s2)) /\ (exists t, read_header s' = Ok (name, t) /\ read_CRS t = Ok (c', s2)) /\
  z_sign_positive c' = z_sign_positive c.
Proof.
  intros (pre & first & hs & cs & cs' & rest & name & up & E & E' & N & Hp & Hf & H & C & C' & R & Nx).
  destruct (crs_read cs up rest (nl (open_text text)) C (fun _ => Nx) R) as (c & Ec & Zc).
  destruct (crs_read cs' up rest (nl (open_text text)) C' (fun _ => Nx) R) as (c' & Ec' & Zc').
  exists first, (mkStream (hs ++ cs ++ rest) (nl (open_text text))), (mkStream (hs ++ cs' ++ rest) (nl (open_text text))), (mkStream rest (nl (open_text text))), name, c, c'.
  split; [rewrite (stream_is _ _ E); now apply goto_if_hit|]. split; [rewrite (stream_is _ _ E'), N; now apply goto_if_hit|].
  split; [eexists; split; [apply header_read; exact H|exact Ec]|]. split; [eexists; split; [apply header_read; exact H|exact Ec']|]. congruence.
Qed.

(** ** C158 *)
(** The names, units, projection and datum of the coordinate system change nothing to what is loaded, nor to how loading fails. *)
Theorem C158_only_the_direction (F : Num) text text' :
  (other_crs "GOCAD TSurf" text text' -> read_ts F text' = read_ts F text) /\
  (other_crs "GOCAD VSet" text text' -> read_vs F text' = read_vs F text) /\
  (other_crs "GOCAD PLine" text text' -> read_pl F text' = read_pl F text) /\
  (other_crs "GOCAD Well" text text' -> read_wl F text' = read_wl F text) /\
  (other_crs "GOCAD LightTSolid" text text' -> read_lso F text' = read_lso F text /\ read_strati F text' = read_strati F text).
Proof.
  set (N := (List.length (pending (open_text text)) + List.length (pending (open_text text')))%nat).
  split; [|split; [|split; [|split]]]; intros H; destruct (crs_step _ _ _ H) as (first & s & s' & s2 & name & c & c' & G & G' & (t & Eh & Ec) & (t' & Eh' & Ec') & Z).
  - unfold read_ts. cbv zeta.
    rewrite (read_ts_loop_fuel F (S (List.length (pending (open_text text')))) (S N)) by (unfold N; lia).
    rewrite (read_ts_loop_fuel F (S (List.length (pending (open_text text)))) (S N)) by (unfold N; lia). cbn [read_ts_loop].
    unfold read_tsurf. rewrite G, G', Eh, Eh'. cbn [bind]. rewrite Ec, Ec'. cbn [bind].
    destruct (read_prop_header F [] s2) as [[props s4]| | |]; cbn [bind]; try reflexivity.
    unfold read_tfaces. destruct (goto_keyword "TFACE" s4) as [[l s5]| | |]; cbn [bind]; try reflexivity.
    set (ts0 := mkTSurf 1 name c props [] [] [0] [0] [] [] (map (fun _ => []) (p_names props))).
    change (mkTSurf 1 name c' props [] [] [0] [0] [] [] (map (fun _ => []) (p_names props))) with (crs_ts c' ts0).
    rewrite tfaces_loop_same by exact Z. rewrite bind_rmap. destruct (tfaces_loop F ts0 (pending s5)) as [[ts r]| | |]; reflexivity.
  - unfold read_vs. cbv zeta.
    rewrite (read_vs_loop_fuel F (S (List.length (pending (open_text text')))) (S N)) by (unfold N; lia).
    rewrite (read_vs_loop_fuel F (S (List.length (pending (open_text text)))) (S N)) by (unfold N; lia). cbn [read_vs_loop].
    unfold read_vs_points. rewrite G, G', Eh, Eh'. cbn [bind]. rewrite Ec, Ec'. cbn [bind].
    destruct (read_prop_header F [] s2) as [[props s4]| | |]; cbn [bind]; try reflexivity.
    unfold read_VSet_vertices. destruct (goto_keywords _ s4) as [[l s5]| | |]; cbn [bind]; try reflexivity.
    set (vs0 := mkVSet 1 name c props [] (map (fun _ => []) (p_names props))).
    change (mkVSet 1 name c' props [] (map (fun _ => []) (p_names props))) with (crs_vs c' vs0).
    rewrite vset_loop_same by exact Z. rewrite bind_rmap. destruct (vset_loop F vs0 (l :: pending s5)) as [[vs r]| | |]; reflexivity.
  - unfold read_pl. cbv zeta.
    rewrite (read_pl_loop_fuel F (S (List.length (pending (open_text text')))) (S N)) by (unfold N; lia).
    rewrite (read_pl_loop_fuel F (S (List.length (pending (open_text text)))) (S N)) by (unfold N; lia). cbn [read_pl_loop].
    unfold read_ecurve. rewrite G, G', Eh, Eh'. cbn [bind]. rewrite Ec, Ec'. cbn [bind].
    unfold read_ilines. destruct (goto_keyword "ILINE" s2) as [[l s5]| | |]; cbn [bind]; try reflexivity.
    set (ec0 := mkECurve 1 name c [] []). change (mkECurve (F:=F) 1 name c' [] []) with (crs_ec c' ec0).
    rewrite ilines_loop_same by exact Z. rewrite bind_rmap. destruct (ilines_loop F ec0 (pending s5)) as [[ec r]| | |]; reflexivity.
  - unfold read_wl. rewrite G, G', Eh, Eh'. cbn [bind]. rewrite Ec, Ec'. cbn [bind].
    assert (R : read_ref F c' s2 = read_ref F c s2) by (unfold read_ref, WellModel.signed; now rewrite Z). rewrite R.
    apply bind_congr. intros [ref s3]. apply bind_congr. intros [l s4]. now apply paths_same.
  - assert (E : read_lso F text' = read_lso F text); [|split; [exact E|unfold read_strati; now rewrite E]].
    unfold read_lso. rewrite G, G', Eh, Eh'. cbn [bind]. rewrite Ec, Ec'. cbn [bind].
    apply bind_congr. intros [vp s3]. apply bind_congr. intros [tp s4]. unfold lso_body. apply bind_congr. intros [l s5].
    now rewrite (lso_vertices_same c' c).
Qed.
Print Assumptions C158_only_the_direction.

(** ** What does not hold *)
Definition cr_lines (units : string) : list bytes := map lit
  ["GOCAD TSurf 1"; "HEADER {"; "name:s"; "}"; "GOCAD_ORIGINAL_COORDINATE_SYSTEM"; "NAME Default"; "AXIS_NAME X Y Z"; units; "ZPOSITIVE Elevation"; "END_ORIGINAL_COORDINATE_SYSTEM";
   "TFACE"; "VRTX 1 0 0 5"; "VRTX 2 1 0 6"; "VRTX 3 0 1 7"; "TRGL 1 2 3"; "END"].
(** Coordinates in feet are loaded as coordinates in metres; the loaded surface is then saved with the same numbers and metres as unit. *)
Theorem C158_units_refuted : exists feet metres,
  feet = "AXIS_UNIT ft ft ft"%string /\ metres = "AXIS_UNIT m m m"%string /\
  mesh_is zzz_eqb (read_ts ExNum (unlines (cr_lines feet))) (Some (lit "s")) [(0, 0, 5); (1, 0, 6); (0, 1, 7)] [(0, 1, 2)] [] = true /\
  mesh_is zzz_eqb (read_ts ExNum (unlines (cr_lines metres))) (Some (lit "s")) [(0, 0, 5); (1, 0, 6); (0, 1, 7)] [(0, 1, 2)] [] = true /\
  In (lit metres) (write_CRS default_crs).
Proof.
  do 2 eexists. split; [reflexivity|]. split; [reflexivity|]. split; [vm_compute; reflexivity|]. split; [vm_compute; reflexivity|].
  vm_compute. do 5 right. now left.
Qed.
Print Assumptions C158_units_refuted.

(** ** Instances *)
Definition cr_tail : list bytes := map lit ["TFACE"; "VRTX 1 0 0 5"; "VRTX 2 1 0 6"; "VRTX 3 0 1 7"; "TRGL 1 2 3"; "END"].
Definition cr_file (cs : list string) : bytes := unlines (map lit ["GOCAD TSurf 1"; "HEADER {"; "name:s"; "}"] ++ map lit cs ++ cr_tail).
Definition cr_depth1 : list string := ["GOCAD_ORIGINAL_COORDINATE_SYSTEM"; "NAME Default"; "ZPOSITIVE Depth"; "END_ORIGINAL_COORDINATE_SYSTEM"].
Definition cr_depth2 : list string := ["GOCAD_ORIGINAL_COORDINATE_SYSTEM"; "NAME ""my system"""; "PROJECTION Lambert"; "DATUM Paris"; "AXIS_NAME E N D"; "AXIS_UNIT ft ft ft"; "ZPOSITIVE Depth"; "END_ORIGINAL_COORDINATE_SYSTEM"].
Ltac entries := repeat (apply Forall_cons; [do 2 eexists; split; [vm_compute; reflexivity|intros _; discriminate]|]); constructor.
Example C158_case :
  other_crs "GOCAD TSurf" (cr_file cr_depth1) (cr_file cr_depth2) /\
  mesh_is zzz_eqb (read_ts ExNum (cr_file cr_depth1)) (Some (lit "s")) [(0, 0, -5); (1, 0, -6); (0, 1, -7)] [(0, 1, 2)] [] = true /\
  mesh_is zzz_eqb (read_ts ExNum (cr_file cr_depth2)) (Some (lit "s")) [(0, 0, -5); (1, 0, -6); (0, 1, -7)] [(0, 1, 2)] [] = true.
Proof.
  split; [|split; vm_compute; reflexivity].
  exists [], (lit "GOCAD TSurf 1"), (map lit ["HEADER {"; "name:s"; "}"]), (map lit cr_depth1), (map lit cr_depth2), cr_tail, (Some (lit "s")), false.
  unfold cr_file. rewrite !open_unlines by (unfold cr_depth1, cr_depth2, cr_tail; cbn [map app]; repeat (apply Forall_cons; [apply lineb_ok; vm_compute; reflexivity|]); constructor).
  split; [reflexivity|]. split; [reflexivity|]. split; [reflexivity|]. split; [constructor|]. split; [reflexivity|]. split; [|split; [|split; [|split]]].
  - exists (lit "HEADER {"), [lit "name:s"], (lit "}"). split; [reflexivity|]. split; [reflexivity|]. split; [repeat constructor|]. split; [reflexivity|].
    right. exists [], (lit "name:s"), [], (lit "s"). repeat split; constructor.
  - right. exists (lit "GOCAD_ORIGINAL_COORDINATE_SYSTEM"), (map lit ["NAME Default"; "ZPOSITIVE Depth"]), (lit "END_ORIGINAL_COORDINATE_SYSTEM").
    split; [reflexivity|]. split; [reflexivity|]. split; [repeat constructor|]. split; [entries|]. split; [|reflexivity].
    right. exists [lit "NAME Default"], (lit "ZPOSITIVE Depth"), [], (lit "Depth"), []. repeat split; try discriminate; constructor.
  - right. exists (lit "GOCAD_ORIGINAL_COORDINATE_SYSTEM"), (map lit ["NAME ""my system"""; "PROJECTION Lambert"; "DATUM Paris"; "AXIS_NAME E N D"; "AXIS_UNIT ft ft ft"; "ZPOSITIVE Depth"]),
      (lit "END_ORIGINAL_COORDINATE_SYSTEM").
    split; [reflexivity|]. split; [reflexivity|]. split; [repeat constructor|]. split; [entries|]. split; [|reflexivity].
    right. exists (map lit ["NAME ""my system"""; "PROJECTION Lambert"; "DATUM Paris"; "AXIS_NAME E N D"; "AXIS_UNIT ft ft ft"]), (lit "ZPOSITIVE Depth"), [], (lit "Depth"), [].
    repeat split; try discriminate; constructor.
  - discriminate.
  - vm_compute. reflexivity.
Qed.
