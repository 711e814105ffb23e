(** * The sign of z only changes z. *)
From Coq Require Import ZArith List Lia Bool Ascii String.
From Verif Require Import Base Text TextFacts GocadModel MeshModel TsModel Spec GocadFacts TsFacts.
Import ListNotations.
Local Open Scope string_scope.
Local Open Scope list_scope.
Local Open Scope Z_scope.

Lemma rmap_bind {A B C} (f : B -> C) (r : res A) (g : A -> res B) :
  rmap f (bind r g) = bind r (fun a => rmap f (g a)).
Proof. destruct r; reflexivity. Qed.
Lemma bind_rmap {A B C} (f : A -> B) (r : res A) (g : B -> res C) :
  bind (rmap f r) g = bind r (fun a => g (f a)).
Proof. destruct r; reflexivity. Qed.
Lemma bind_congr {A B} (r : res A) (f g : A -> res B) : (forall a, f a = g a) -> bind r f = bind r g.
Proof. intros H. apply bind_ext. auto. Qed.

Section Flip.
Context (F : Num).
Definition negz (p : point F) : point F := let '(x, y, z) := p in (x, y, neg F z).
Definition set_z (b : bool) (c : CRS) : CRS :=
  mkCRS (axis_names c) (axis_units c) b (crs_name c) (projection c) (datum c).

Lemma nthz_map {A B} (f : A -> B) l i : nthz (map f l) i = option_map f (nthz l i).
Proof.
  unfold nthz. rewrite map_length. destruct (_ && _); [|reflexivity]. now rewrite nth_error_map.
Qed.
Lemma atz_map {A B} (f : A -> B) l i : atz (map f l) i = rmap f (atz l i).
Proof. unfold atz. rewrite nthz_map. destruct (nthz l i); reflexivity. Qed.

Lemma vrtx_point_flip c tokens :
  vrtx_point F (set_z false c) tokens = rmap negz (vrtx_point F (set_z true c) tokens).
Proof.
  unfold vrtx_point. repeat (rewrite rmap_bind; apply bind_congr; intros ?). reflexivity.
Qed.
Lemma map_nil_match {A B} (f : A -> B) (l : list A) :
  (match map f l with [] => true | _ => false end) = (match l with [] => true | _ => false end).
Proof. destruct l; reflexivity. Qed.

Definition flip_ts (ts : TSurf F) : TSurf F :=
  mkTSurf (t_offset ts) (t_name ts) (set_z false (t_crs ts)) (t_props ts) (map negz (t_points ts))
    (t_triangles ts) (t_tri_off ts) (t_vert_off ts) (t_bstones ts) (t_borders ts) (t_values ts).
Definition flip_ec (e : ECurve F) : ECurve F :=
  mkECurve (e_offset e) (e_name e) (set_z false (e_crs e)) (map negz (e_points e)) (e_edges e).
Definition flip_vs (v : VSet F) : VSet F :=
  mkVSet (v_offset v) (v_name v) (set_z false (v_crs v)) (v_props v) (map negz (v_points v)) (v_values v).

Ltac go := repeat (rewrite rmap_bind; apply bind_congr; intros ?).
Lemma tface_line_flip o n c h pts tris tro vo bst bor vals l :
  let ts := mkTSurf o n (set_z true c) h pts tris tro vo bst bor vals in
  tface_line F (flip_ts ts) l = rmap (fun x => (flip_ts (fst x), snd x)) (tface_line F ts l).
Proof.
  cbn zeta. unfold tface_line. rewrite rmap_bind. apply bind_congr. intros k.
  cbv [flip_ts]. cbn [t_offset t_name t_crs t_props t_points t_triangles t_tri_off t_vert_off t_bstones t_borders t_values].
  change (set_z false (set_z true c)) with (set_z false c).
  destruct (is_vrtx k).
  { rewrite map_nil_match. rewrite rmap_bind. apply bind_congr. intros o'.
    rewrite rmap_bind, vrtx_point_flip, bind_rmap. apply bind_congr. intros p.
    rewrite rmap_bind. apply bind_congr. intros v'. cbn. now rewrite map_app. }
  destruct (is_atom k).
  { rewrite rmap_bind. apply bind_congr. intros i. rewrite rmap_bind, atz_map, bind_rmap.
    apply bind_congr. intros p. rewrite rmap_bind. apply bind_congr. intros v'. cbn. now rewrite map_app. }
  destruct (beq k _); [go; reflexivity|].
  destruct (beq k _); [go; reflexivity|].
  destruct (beq k _); [go; reflexivity|].
  destruct (beq k _); [unfold lenz; rewrite map_length; reflexivity|].
  destruct (beq k _); [unfold lenz; rewrite map_length; reflexivity|].
  reflexivity.
Qed.
(** The sign survives the loop. *)
Lemma tface_line_crs ts l ts' b : tface_line F ts l = Ok (ts', b) -> t_crs ts' = t_crs ts.
Proof.
  unfold tface_line. intros H. apply bind_ok in H as [k [_ H]]. destruct ts as [o n c h pts tris tro vo bst bor vals]. cbn [t_crs] in *.
  repeat match type of H with
  | (if ?c then _ else _) = _ => destruct c
  end;
  repeat match type of H with
  | bind _ _ = Ok _ => apply bind_ok in H as [? [_ H]]
  end; injection H as <- <-; reflexivity.
Qed.
Lemma tfaces_loop_flip ls ts : z_sign_positive (t_crs ts) = true ->
  tfaces_loop F (flip_ts ts) ls = rmap (fun x => (flip_ts (fst x), snd x)) (tfaces_loop F ts ls).
Proof.
  revert ts. induction ls as [|l r IH]; intros ts Hz; [reflexivity|]. cbn [tfaces_loop].
  destruct ts as [o n c h pts tris tro vo bst bor vals]. cbn [t_crs] in Hz.
  assert (Ec : c = set_z true c) by (destruct c; cbn in *; now subst).
  rewrite Ec. pose proof (tface_line_flip o n c h pts tris tro vo bst bor vals l) as E. cbn zeta in E.
  rewrite E. rewrite bind_rmap, rmap_bind.
  apply bind_ext. intros [ts' stop] Ht. cbn [fst snd]. destruct stop; [reflexivity|].
  apply IH. apply tface_line_crs in Ht. cbn [t_crs] in Ht. rewrite Ht. reflexivity.
Qed.
Lemma iline_line_flip o n c pts es l :
  let ec := mkECurve o n (set_z true c) pts es in
  iline_line F (flip_ec ec) l = rmap (fun x => (flip_ec (fst x), snd x)) (iline_line F ec l).
Proof.
  cbn zeta. unfold iline_line. rewrite rmap_bind. apply bind_congr. intros k.
  cbv [flip_ec]. cbn [e_offset e_name e_crs e_points e_edges].
  change (set_z false (set_z true c)) with (set_z false c).
  destruct (is_vrtx k).
  { rewrite map_nil_match. rewrite rmap_bind. apply bind_congr. intros o'.
    rewrite rmap_bind, vrtx_point_flip, bind_rmap. apply bind_congr. intros p.
    cbn. now rewrite map_app. }
  destruct (beq k _); [go; reflexivity|].
  destruct (beq k _); reflexivity.
Qed.
Lemma iline_line_crs ts l ts' b : iline_line F ts l = Ok (ts', b) -> e_crs ts' = e_crs ts.
Proof.
  unfold iline_line. intros H. apply bind_ok in H as [k [_ H]]. destruct ts as [o n c pts es]. cbn [e_crs] in *.
  repeat match type of H with
  | (if ?c then _ else _) = _ => destruct c
  end;
  repeat match type of H with
  | bind _ _ = Ok _ => apply bind_ok in H as [? [_ H]]
  end; injection H as <- <-; reflexivity.
Qed.
Lemma ilines_loop_flip ls ts : z_sign_positive (e_crs ts) = true ->
  ilines_loop F (flip_ec ts) ls = rmap (fun x => (flip_ec (fst x), snd x)) (ilines_loop F ts ls).
Proof.
  revert ts. induction ls as [|l r IH]; intros ts Hz; [reflexivity|]. cbn [ilines_loop].
  destruct ts as [o n c pts es]. cbn [e_crs] in Hz.
  assert (Ec : c = set_z true c) by (destruct c; cbn in *; now subst).
  rewrite Ec. pose proof (iline_line_flip o n c pts es l) as E. cbn zeta in E.
  rewrite E. rewrite bind_rmap, rmap_bind.
  apply bind_ext. intros [ts' stop] Ht. cbn [fst snd]. destruct stop; [reflexivity|].
  apply IH. apply iline_line_crs in Ht. cbn [e_crs] in Ht. rewrite Ht. reflexivity.
Qed.
Lemma vset_line_flip o n c h pts vals l :
  let vs := mkVSet o n (set_z true c) h pts vals in
  vset_line F (flip_vs vs) l = rmap (fun x => (flip_vs (fst x), snd x)) (vset_line F vs l).
Proof.
  cbn zeta. unfold vset_line. rewrite rmap_bind. apply bind_congr. intros k.
  cbv [flip_vs]. cbn [v_offset v_name v_crs v_points v_props v_values].
  change (set_z false (set_z true c)) with (set_z false c).
  destruct (beq k _); [reflexivity|].
  destruct (negb _); [reflexivity|].
  rewrite map_nil_match. rewrite rmap_bind. apply bind_congr. intros o'.
  rewrite rmap_bind, vrtx_point_flip, bind_rmap. apply bind_congr. intros p.
  rewrite rmap_bind. apply bind_congr. intros v'. cbn. now rewrite map_app.
Qed.
Lemma vset_line_crs ts l ts' b : vset_line F ts l = Ok (ts', b) -> v_crs ts' = v_crs ts.
Proof.
  unfold vset_line. intros H. apply bind_ok in H as [k [_ H]]. destruct ts as [o n c h pts vals]. cbn [v_crs] in *.
  repeat match type of H with
  | (if ?c then _ else _) = _ => destruct c
  end;
  repeat match type of H with
  | bind _ _ = Ok _ => apply bind_ok in H as [? [_ H]]
  end; injection H as <- <-; reflexivity.
Qed.
Lemma vset_loop_flip ls ts : z_sign_positive (v_crs ts) = true ->
  vset_loop F (flip_vs ts) ls = rmap (fun x => (flip_vs (fst x), snd x)) (vset_loop F ts ls).
Proof.
  revert ts. induction ls as [|l r IH]; intros ts Hz; [reflexivity|]. cbn [vset_loop].
  destruct ts as [o n c h pts vals]. cbn [v_crs] in Hz.
  assert (Ec : c = set_z true c) by (destruct c; cbn in *; now subst).
  rewrite Ec. pose proof (vset_line_flip o n c h pts vals l) as E. cbn zeta in E.
  rewrite E. rewrite bind_rmap, rmap_bind.
  apply bind_ext. intros [ts' stop] Ht. cbn [fst snd]. destruct stop; [reflexivity|].
  apply IH. apply vset_line_crs in Ht. cbn [v_crs] in Ht. rewrite Ht. reflexivity.
Qed.

(** ** Meshes *)
Definition map_pts {C} (g : point F -> point F) (m : mesh F C) : mesh F C :=
  mkMesh (m_name m) (map g (m_points m)) (m_cells m) (m_attrs m).
Lemma create_attributes_map_pts {C} g names esizes ndvs values nb mp (m : mesh F C) :
  create_attributes_loop names esizes ndvs values nb mp (map_pts g m)
  = rmap (map_pts g) (create_attributes_loop names esizes ndvs values nb mp m).
Proof.
  revert esizes ndvs values m. induction names as [|n ns IH]; intros es ds vs m; [reflexivity|].
  cbn [create_attributes_loop]. destruct es as [|e es]; [reflexivity|].
  destruct ds as [|d ds]; [reflexivity|]. destruct vs as [|v vs]; [reflexivity|]. cbn zeta.
  rewrite rmap_bind.
  replace (find_or_create (map_pts g m) n e (repeat d (Z.to_nat e)))
    with (find_or_create m n e (repeat d (Z.to_nat e))).
  2:{ unfold find_or_create, map_pts. cbn [m_points m_attrs]. rewrite map_map. reflexivity. }
  apply bind_congr. intros a. rewrite rmap_bind. apply bind_congr. intros vals.
  rewrite <- IH. reflexivity.
Qed.
Lemma create_points_map_pts {C} g ps (m : mesh F C) :
  create_points (map g ps) (map_pts g m) = map_pts g (create_points ps m).
Proof.
  rewrite !create_points_spec. unfold map_pts. cbn [m_name m_points m_cells m_attrs].
  rewrite map_app, map_length. reflexivity.
Qed.
Lemma set_name_map_pts {C} g n (m : mesh F C) : set_name n (map_pts g m) = map_pts g (set_name n m).
Proof. destruct n; reflexivity. Qed.
Lemma nb_map_pts {C} g (m : mesh F C) : nb_vertices (map_pts g m) = nb_vertices m.
Proof. unfold nb_vertices, lenz, map_pts. cbn [m_points]. now rewrite map_length. Qed.
Lemma foldM_commute {A S} (f : S -> A -> res S) (g : S -> S) l s :
  (forall s a, f (g s) a = rmap g (f s a)) -> foldM f l (g s) = rmap g (foldM f l s).
Proof.
  intros H. revert s. induction l as [|a t IH]; intros s; [reflexivity|]. cbn [foldM].
  rewrite H, bind_rmap, rmap_bind. apply bind_congr. intros s'. apply IH.
Qed.
Lemma create_triangle_map_pts g (m : mesh F tri) t :
  create_triangle (map_pts g m) t = rmap (map_pts g) (create_triangle m t).
Proof.
  destruct t as [[a b] c]. unfold create_triangle, valid_vertex. rewrite nb_map_pts.
  destruct (_ && _); reflexivity.
Qed.
Lemma create_edge_map_pts g (m : mesh F edge) e :
  create_edge (map_pts g m) e = rmap (map_pts g) (create_edge m e).
Proof.
  destruct e as [a b]. unfold create_edge, valid_vertex. rewrite nb_map_pts.
  destruct (_ && _); reflexivity.
Qed.
Lemma build_surface_flip m ts :
  build_surface (map_pts negz m) (flip_ts ts) = rmap (map_pts negz) (build_surface m ts).
Proof.
  unfold build_surface. cbn zeta. cbn [flip_ts t_points t_name t_triangles t_props t_values].
  rewrite nb_map_pts, set_name_map_pts, create_points_map_pts, rmap_bind.
  rewrite (foldM_commute _ (map_pts negz)) by apply create_triangle_map_pts.
  rewrite bind_rmap. apply bind_congr. intros m2. unfold create_attributes.
  rewrite map_length. apply create_attributes_map_pts.
Qed.
Lemma build_curve_flip m ec :
  build_curve (map_pts negz m) (flip_ec ec) = rmap (map_pts negz) (build_curve m ec).
Proof.
  unfold build_curve. cbn zeta. cbn [flip_ec e_points e_name e_edges].
  rewrite nb_map_pts, set_name_map_pts, create_points_map_pts.
  now rewrite (foldM_commute _ (map_pts negz)) by apply create_edge_map_pts.
Qed.
Lemma build_point_set_flip m vs :
  build_point_set (map_pts negz m) (flip_vs vs) = rmap (map_pts negz) (build_point_set m vs).
Proof.
  unfold build_point_set. cbn zeta. cbn [flip_vs v_points v_name v_props v_values].
  rewrite set_name_map_pts, create_points_map_pts. unfold create_attributes.
  rewrite map_length. apply create_attributes_map_pts.
Qed.

(** ** The coordinate system section *)
Lemma crs_line_set_z b c l :
  (forall t r, split_quotes l = Ok (t :: r) -> t <> lit "ZPOSITIVE") ->
  crs_line (set_z b c) l = rmap (set_z b) (crs_line c l).
Proof.
  intros H. unfold crs_line. destruct (split_quotes l) as [tokens| | |]; try reflexivity.
  cbn [bind]. destruct tokens as [|t0 r]; [reflexivity|]. rewrite idx_0. cbn [bind].
  rewrite (proj2 (beq_neq t0 (lit "ZPOSITIVE"))) by now apply (H t0 r).
  destruct (beq t0 (lit "PROJECTION")); [rewrite rmap_bind; apply bind_congr; reflexivity|].
  destruct (beq t0 (lit "DATUM")); [rewrite rmap_bind; apply bind_congr; reflexivity|].
  destruct (beq t0 (lit "NAME")); [rewrite rmap_bind; apply bind_congr; reflexivity|].
  reflexivity.
Qed.
Definition no_crs_end (l : bytes) : Prop := starts_with l (lit "END_ORIGINAL_COORDINATE_SYSTEM") = false.
Definition no_zpositive (l : bytes) : Prop := forall t r, split_quotes l = Ok (t :: r) -> t <> lit "ZPOSITIVE".
Lemma crs_loop_set_z b c c2 ls :
  Forall no_crs_end c2 -> Forall no_zpositive c2 ->
  forall e, starts_with e (lit "END_ORIGINAL_COORDINATE_SYSTEM") = true ->
  crs_loop (set_z b c) (c2 ++ e :: ls) = rmap (fun x => (set_z b (fst x), snd x)) (crs_loop c (c2 ++ e :: ls)).
Proof.
  intros H1 H2 e He. revert c. induction c2 as [|l r IH]; intros c.
  - cbn [app crs_loop]. rewrite He. reflexivity.
  - inversion H1; subst. inversion H2; subst. cbn [app crs_loop].
    rewrite H3. rewrite crs_line_set_z by assumption. rewrite bind_rmap, rmap_bind.
    apply bind_congr. intros c'. now apply IH.
Qed.
Lemma crs_loop_app c c1 ls : Forall no_crs_end c1 ->
  crs_loop c (c1 ++ ls) = do c' <- foldM crs_line c1 c; crs_loop c' ls.
Proof.
  intros H. revert c. induction H as [|l r Hl Hr IH]; intros c; [reflexivity|].
  cbn [app crs_loop foldM]. rewrite Hl. rewrite bind_assoc. apply bind_congr. intros c'. apply IH.
Qed.
(** The section lines, with the z direction as a parameter. *)
Definition zline (b : bool) : bytes := if b then lit "ZPOSITIVE Elevation" else lit "ZPOSITIVE Depth".
Lemma read_CRS_zline g c1 c2 e :
  starts_with g (lit "GOCAD_ORIGINAL_COORDINATE_SYSTEM") = true ->
  Forall no_crs_end c1 -> Forall no_crs_end c2 -> Forall no_zpositive c2 ->
  starts_with e (lit "END_ORIGINAL_COORDINATE_SYSTEM") = true ->
  exists r : res CRS,
  (forall c, r = Ok c -> z_sign_positive c = true) /\
  forall b ls nlb, read_CRS (mkStream (g :: c1 ++ zline b :: c2 ++ e :: ls) nlb)
  = do c <- r; Ok (set_z b c, mkStream ls nlb).
Proof.
  intros Hg H1 H2 H3 He.
  exists (do c <- foldM crs_line c1 default_crs; foldM crs_line c2 (set_z true c)). split.
  - intros c H. apply bind_ok in H as [c0 [_ H]].
    assert (Hz : z_sign_positive (set_z true c0) = true) by reflexivity. revert Hz H.
    generalize (set_z true c0). clear c0. clear H2.
    induction H3 as [|l r Hl Hr IH]; intros c0 Hz H; cbn [foldM] in H.
    + injection H as <-. exact Hz.
    + apply bind_ok in H as [c1' [E H]]. eapply IH; [|exact H].
      assert (Ec : c0 = set_z true c0) by (destruct c0; cbn in *; now subst).
      rewrite Ec, crs_line_set_z in E by assumption. unfold rmap in E.
      apply bind_ok in E as [x [_ E]]. injection E as <-. reflexivity.
  - intros b ls nlb. unfold read_CRS, next_if. cbn [pending nl]. rewrite Hg. cbn [pending nl].
    rewrite crs_loop_app by assumption. rewrite !bind_assoc. apply bind_congr. intros c.
    cbn [crs_loop]. replace (starts_with (zline b) _) with false by (destruct b; reflexivity).
    assert (E : crs_line c (zline b) = Ok (set_z b (set_z true c))) by (destruct b; reflexivity).
    rewrite E. cbn [bind]. rewrite crs_loop_set_z by assumption. rewrite bind_rmap.
    rewrite crs_loop_app by assumption. rewrite !bind_assoc. apply bind_congr. intros c'.
    cbn [crs_loop]. rewrite He. reflexivity.
Qed.
End Flip.
