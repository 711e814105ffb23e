(** * What a saved GOCAD file is made of (C133). *)
From Coq Require Import ZArith List Lia Bool Ascii String.
From Verif Require Import Base Text TextFacts GocadModel MeshModel TsModel PlModel LsoModel SignsModel MlModel Spec ExNum ExCheck PropsLso PropsPl PropsTsVs PropsMl.
Import ListNotations.
Local Open Scope string_scope.
Local Open Scope list_scope.
Local Open Scope Z_scope.

(** ** Specification *)

(** The lines in front of the data of an object: its kind, its name when it has one, and the coordinate system every saved object
    announces: axes X, Y, Z in metres, elevations upwards. *)
Definition preamble (kind : bytes) (name : option bytes) : list bytes :=
  [lit "GOCAD " ++ kind ++ lit " 1"; lit "HEADER {"] ++
  match name with Some n => [lit "name:" ++ n] | None => [] end ++
  [lit "}";
   lit "GOCAD_ORIGINAL_COORDINATE_SYSTEM";
   lit "NAME Default";
   lit "PROJECTION Unknown";
   lit "DATUM Unknown";
   lit "AXIS_NAME X Y Z";
   lit "AXIS_UNIT m m m";
   lit "ZPOSITIVE Elevation";
   lit "END_ORIGINAL_COORDINATE_SYSTEM"].
(** A line that neither begins nor ends an object or a coordinate system *)
Definition inner (l : bytes) : Prop := starts_with l "GOCAD" = false /\ starts_with l "END" = false /\ starts_with l "HEADER" = false.
(** One whole object *)
Definition whole_object (kind : bytes) (name : option bytes) (ls : list bytes) : Prop :=
  exists body, ls = preamble kind name ++ body ++ [lit "END"] /\ Forall inner body.

(** ** The lines of each writer *)
Lemma preamble_is kind name :
  [lit "GOCAD " ++ kind ++ lit " 1"] ++ write_header name ++ write_CRS default_crs = preamble kind name.
Proof. unfold preamble, write_header. destruct name; reflexivity. Qed.

Lemma inner_app l1 l2 : Forall inner l1 -> Forall inner l2 -> Forall inner (l1 ++ l2).
Proof. intros. apply Forall_app. split; assumption. Qed.
Lemma inner_map {A} (f : A -> bytes) l : (forall x, inner (f x)) -> Forall inner (map f l).
Proof. intros H. apply Forall_forall. intros y K. apply in_map_iff in K. destruct K as (x & <- & _). apply H. Qed.
Lemma inner_flat {A} (f : A -> list bytes) l : (forall x, Forall inner (f x)) -> Forall inner (flat_map f l).
Proof. intros H. apply Forall_forall. intros y K. apply in_flat_map in K. destruct K as (x & _ & K). specialize (H x). rewrite Forall_forall in H. now apply H. Qed.
Lemma inner_concat l : Forall (Forall inner) l -> Forall inner (List.concat l).
Proof. induction 1 as [|x r Hx _ IH]; cbn; [constructor|]. now apply inner_app. Qed.
Lemma inner_mapM {A} (f : A -> res (list bytes)) l r : (forall x y, f x = Ok y -> Forall inner y) -> mapM f l = Ok r -> Forall (Forall inner) r.
Proof.
  intros H. revert r. induction l as [|x l IH]; cbn [mapM]; intros r E.
  - injection E as <-. constructor.
  - apply bind_ok in E. destruct E as (y & E1 & E). apply bind_ok in E. destruct E as (q & E2 & E). injection E as <-.
    constructor; [now apply (H x)|now apply IH].
Qed.
Lemma ok_eq {A} (a b : A) : Ok a = Ok b -> a = b.
Proof. congruence. Qed.
Ltac inn := (split; [reflexivity|split; reflexivity]).

Lemma inner_class n k u z : Forall inner (write_property_class_header n k u z).
Proof. unfold write_property_class_header. destruct z; repeat (constructor; [inn|]); constructor. Qed.
Lemma inner_props {F} (ws : list (wattr F)) : Forall inner (prop_lines ws).
Proof.
  unfold prop_lines. apply inner_app; [|apply inner_app].
  - destruct ws; [constructor|]. unfold write_prop_header. repeat (constructor; [inn|]). constructor.
  - unfold xyz_class_headers. apply inner_app; [apply inner_class|]. apply inner_app; apply inner_class.
  - apply inner_flat. intros. apply inner_class.
Qed.
Lemma inner_kw {F} (us : list (wattr F)) t : inner (vrtx_keyword us ++ t).
Proof. unfold vrtx_keyword. destruct us; inn. Qed.
Lemma inner_vrtx {F} (us ws : list (wattr F)) ps : forall v, Forall inner (vrtx_lines (vrtx_keyword us) ws v ps).
Proof. induction ps as [|p r IH]; intros v; cbn [vrtx_lines]; constructor; [apply inner_kw|apply IH]. Qed.
Lemma inner_trgl t : inner (trgl_line t).
Proof. destruct t as [[a b] c]. inn. Qed.

Lemma ts_object {F} (m : wmesh F tri) : whole_object "TSurf" (wm_name m) (ts_lines m).
Proof.
  exists (prop_lines (filter exported (wm_attrs m)) ++ [lit "TFACE"] ++ vrtx_lines (vrtx_keyword (wm_attrs m)) (filter exported (wm_attrs m)) 0 (wm_points m) ++
    map trgl_line (wm_cells m)). split.
  - unfold ts_lines. rewrite <- preamble_is. rewrite <- !app_assoc. reflexivity.
  - apply inner_app; [apply inner_props|]. apply inner_app; [constructor; [inn|constructor]|]. apply inner_app; [apply inner_vrtx|].
    apply inner_map. apply inner_trgl.
Qed.
Lemma vs_object {F} (m : wmesh F unit) : whole_object "VSet" (wm_name m) (vs_lines m).
Proof.
  exists (prop_lines (filter exported (wm_attrs m)) ++ vrtx_lines (vrtx_keyword (wm_attrs m)) (filter exported (wm_attrs m)) 0 (wm_points m)). split.
  - unfold vs_lines. rewrite <- preamble_is. rewrite <- !app_assoc. reflexivity.
  - apply inner_app; [apply inner_props|apply inner_vrtx].
Qed.
Lemma inner_pvrtx {F} (us ws : list (wattr F)) pt vs : forall n, Forall inner (pvrtx_lines (vrtx_keyword us) ws pt n vs).
Proof.
  induction vs as [|v r IH]; intros n; cbn [pvrtx_lines]; constructor; [|apply IH].
  unfold pvrtx_line. destruct (pt v) as [[x y] z]. apply inner_kw.
Qed.
Lemma inner_block {F} (us ws : list (wattr F)) pt b : Forall inner (block_lines (vrtx_keyword us) ws pt b).
Proof.
  unfold block_lines. apply inner_app; [constructor; [inn|constructor]|]. apply inner_app; [apply inner_pvrtx|]. apply inner_app.
  - unfold seg_lines. apply inner_map. intros. inn.
  - destruct (b_close b); [constructor; [inn|constructor]|constructor].
Qed.
Lemma pl_object {F} around (m : wmesh F edge) ls : pl_lines around m = Ok ls -> whole_object "PLine" (Some (lit "edged_curve_name")) ls.
Proof.
  unfold pl_lines. intros E. apply bind_ok in E. destruct E as (bs & _ & E). apply ok_eq in E. subst ls.
  match goal with |- whole_object _ _ (_ ++ _ ++ _ ++ ?a ++ ?b ++ _) => exists (a ++ b) end. split.
  - rewrite <- preamble_is. rewrite <- !app_assoc. reflexivity.
  - apply inner_app; [apply inner_props|]. apply inner_flat. apply inner_block.
Qed.

(** *** LightTSolid *)
Lemma inner_uvs {F} (m : LModel F) uvs : forall v nb ls rws atoms, write_uvs m v nb uvs = Ok (ls, rws, atoms) -> Forall inner ls.
Proof.
  induction uvs as [|mvs r IH]; intros v nb ls rws atoms E; cbn [write_uvs] in E.
  - injection E as <- _ _. constructor.
  - apply bind_ok in E. destruct E as (i & _ & E). apply bind_ok in E. destruct E as (mv & _ & E).
    apply bind_ok in E. destruct E as (b & _ & E). apply bind_ok in E. destruct E as (p & _ & E).
    apply bind_ok in E. destruct E as ([[q1 q2] q3] & E1 & E). injection E as <- _ _.
    constructor; [inn|]. eapply IH. exact E1.
Qed.
Lemma inner_shared atoms : forall c, Forall inner (shared_lines c atoms).
Proof. induction atoms as [|a r IH]; intros c; cbn [shared_lines]; constructor; [inn|apply IH]. Qed.
Lemma inner_tface s n ls : tface_lines s n = Ok ls -> Forall inner ls.
Proof.
  unfold tface_lines. intros E. apply bind_ok in E. destruct E as (t & _ & E). apply bind_ok in E. destruct E as (k & _ & E).
  apply bind_ok in E. destruct E as (ts & _ & E). injection E as <-. constructor; [inn|]. constructor; [inn|]. apply inner_map. intros. inn.
Qed.
Lemma inner_items {F} (m : LModel F) items : forall ex n ls ex' n', write_items m items ex n = Ok (ls, ex', n') -> Forall inner ls.
Proof.
  induction items as [|i r IH]; intros ex n ls ex' n' E; cbn [write_items] in E.
  - injection E as <- _ _. constructor.
  - destruct (is_exported ex i).
    + eapply IH. exact E.
    + apply bind_ok in E. destruct E as (s & _ & E). apply bind_ok in E. destruct E as (l1 & E1 & E).
      apply bind_ok in E. destruct E as ([[l2 e2] n2] & E2 & E). injection E as <- _ _.
      apply inner_app; [eapply inner_tface; exact E1|eapply IH; exact E2].
Qed.
Lemma inner_surfaces {F} (m : LModel F) cs : forall ex n ls ex' n', write_surfaces m cs ex n = Ok (ls, ex', n') -> Forall inner ls.
Proof.
  induction cs as [|c r IH]; intros ex n ls ex' n' E; cbn [write_surfaces] in E.
  - injection E as <- _ _. constructor.
  - destruct (forallb (is_exported ex) (g_items c)).
    + eapply IH. exact E.
    + apply bind_ok in E. destruct E as ([[l1 e1] n1] & E1 & E).
      apply bind_ok in E. destruct E as ([[l2 e2] n2] & E2 & E). injection E as <- _ _.
      constructor; [inn|]. apply inner_app; [eapply inner_items; exact E1|eapply IH; exact E2].
Qed.
Lemma inner_tetra {F} rws (b : LBlock F) t ls : tetra_line rws b t = Ok ls -> Forall inner ls.
Proof.
  unfold tetra_line. destruct t as [[[t0 t1] t2] t3]. intros E. do 4 (apply bind_ok in E; destruct E as (? & _ & E)). injection E as <-.
  constructor; [inn|]. constructor; [inn|constructor].
Qed.
Lemma lso_object {F} (m : LModel F) sides ls : lso_lines m sides = Ok ls -> whole_object "LightTSolid" (l_title m) ls.
Proof.
  unfold lso_lines. intros E. apply bind_ok in E. destruct E as ([vls rws] & E1 & E). apply bind_ok in E. destruct E as (tls & E2 & E).
  apply bind_ok in E. destruct E as ([[s1 e1] n1] & E3 & E). apply bind_ok in E. destruct E as ([[s2 e2] n2] & E4 & E).
  apply bind_ok in E. destruct E as ([[s3 e3] n3] & E5 & E). apply bind_ok in E. destruct E as (rls & E6 & E). apply ok_eq in E. subst ls.
  exists (vls ++ tls ++ [lit "MODEL"] ++ s1 ++ s2 ++ s3 ++ rls). split.
  - rewrite <- preamble_is. rewrite <- !app_assoc. reflexivity.
  - apply inner_app; [|apply inner_app; [|apply inner_app; [constructor; [inn|constructor]|apply inner_app; [|apply inner_app; [|apply inner_app]]]]].
    + unfold write_vertices in E1. apply bind_ok in E1. destruct E1 as ([[q1 q2] q3] & E1 & K). injection K as <- _.
      apply inner_app; [eapply inner_uvs; exact E1|apply inner_shared].
    + unfold write_tetrahedra in E2. apply bind_ok in E2. destruct E2 as (q & E2 & K). injection K as <-.
      apply inner_concat. clear -E2. revert q E2. induction (l_blocks m) as [|b r IH]; intros q E2; cbn [mapM] in E2.
      * injection E2 as <-. constructor.
      * apply bind_ok in E2. destruct E2 as (x & K1 & E2). apply bind_ok in E2. destruct E2 as (y & K2 & E2). injection E2 as <-.
        cbn [List.concat]. apply Forall_app. split; [|now apply IH]. eapply inner_mapM; [|exact K1]. intros t z. apply inner_tetra.
    + eapply inner_surfaces; exact E3.
    + eapply inner_surfaces; exact E4.
    + eapply inner_surfaces; exact E5.
    + clear -E6. revert rls E6. induction (l_blocks m) as [|b r IH]; intros q E2; cbn [mapM] in E2.
      * injection E2 as <-. constructor.
      * apply bind_ok in E2. destruct E2 as (x & K1 & E2). apply bind_ok in E2. destruct E2 as (y & K2 & E2). injection E2 as <-.
        constructor; [|now apply IH]. unfold region_line_of in K1. do 3 (apply bind_ok in K1; destruct K1 as (? & _ & K1)). injection K1 as <-. inn.
Qed.

(** *** Model3d *)
Section Ml.
Context {F : Num} (uuid_text : Z -> bytes).
Lemma inner_key (s : MSurf F) ls : key_lines s = Ok ls -> Forall inner ls.
Proof.
  unfold key_lines. intros E. apply bind_ok in E. destruct E as ([[a b] c] & _ & E). revert ls E.
  generalize [a; b; c]. induction l as [|v r IH]; intros ls E; cbn [mapM] in E.
  - injection E as <-. constructor.
  - apply bind_ok in E. destruct E as (x & K1 & E). apply bind_ok in E. destruct E as (y & K2 & E). injection E as <-.
    constructor; [|now apply IH]. apply bind_ok in K1. destruct K1 as (p & _ & K1). injection K1 as <-. inn.
Qed.
Lemma foldM_inner {A S} (f : list bytes * S -> A -> res (list bytes * S)) l :
  (forall acc x acc', f acc x = Ok acc' -> Forall inner (fst acc) -> Forall inner (fst acc')) ->
  forall acc acc', foldM f l acc = Ok acc' -> Forall inner (fst acc) -> Forall inner (fst acc').
Proof.
  intros H. induction l as [|x r IH]; intros acc acc' E K; cbn [foldM] in E.
  - injection E as <-. exact K.
  - apply bind_ok in E. destruct E as (a1 & E1 & E). eapply IH; [exact E|]. eapply H; [exact E1|exact K].
Qed.
Lemma inner_tfaces (m : SModel F) ls st : write_tfaces uuid_text m = Ok (ls, st) -> Forall inner ls.
Proof.
  unfold write_tfaces. intros E. refine (foldM_inner _ _ _ _ (ls, st) E _); [|constructor].
  intros acc [[k n] items] acc' E1. eapply foldM_inner; [|exact E1]. clear.
  intros [l0 st0] x acc' E K. cbn [write_tface_item] in E. destruct (find_id (comps st0) x).
  - apply bind_ok in E. destruct E as (? & _ & E). injection E as <-. exact K.
  - apply bind_ok in E. destruct E as (? & _ & E). apply bind_ok in E. destruct E as (? & _ & E). apply bind_ok in E. destruct E as (s & _ & E).
    apply bind_ok in E. destruct E as (ks & E1 & E). injection E as <-. cbn [fst] in *. apply inner_app; [exact K|]. constructor; [inn|].
    eapply inner_key. exact E1.
Qed.
Lemma inner_wrap es : forall cur c, (exists t, cur = SP :: t) -> Forall inner (wrap_ids cur c es).
Proof.
  induction es as [|e r IH]; intros cur c (t & ->); cbn [wrap_ids].
  - constructor; [inn|constructor].
  - destruct (Nat.eqb (S c mod 5) 0).
    + constructor; [inn|]. apply IH. eexists. reflexivity.
    + apply IH. eexists. reflexivity.
Qed.
Lemma inner_ids es : Forall inner (id_lines es).
Proof. apply inner_wrap. eexists. reflexivity. Qed.
Lemma inner_units kw st (H : forall t, inner (kw ++ t)) l r : mapM (write_unit kw st) l = Ok r -> Forall inner (List.concat r).
Proof.
  intros E. apply inner_concat. eapply inner_mapM; [|exact E]. intros c y K. unfold write_unit in K.
  apply bind_ok in K. destruct K as (n & _ & K). apply bind_ok in K. destruct K as (es & _ & K). injection K as <-.
  constructor; [apply H|apply inner_ids].
Qed.
Lemma components_object (m : SModel F) us rs cs : write_components uuid_text m us rs = Ok cs -> exists body, cs = body ++ [lit "END"] /\ Forall inner body.
Proof.
  unfold write_components. intros E. apply bind_ok in E. destruct E as (l1 & E1 & E). apply bind_ok in E. destruct E as ([l2 st2] & E2 & E).
  apply bind_ok in E. destruct E as ([l3 st3] & E3 & E). apply bind_ok in E. destruct E as ([l4 st4] & E4 & E).
  apply bind_ok in E. destruct E as (l5 & E5 & E). apply bind_ok in E. destruct E as (l6 & E6 & E). apply ok_eq in E. subst cs.
  exists (l1 ++ l2 ++ l3 ++ l4 ++ List.concat l5 ++ List.concat l6). split; [now rewrite <- !app_assoc|].
  apply inner_app; [|apply inner_app; [|apply inner_app; [|apply inner_app; [|apply inner_app]]]].
  - unfold write_tsurfs in E1. apply bind_ok in E1. destruct E1 as (? & _ & E1). apply bind_ok in E1. destruct E1 as (? & _ & E1). injection E1 as <-.
    apply inner_map. intros. inn.
  - eapply inner_tfaces. exact E2.
  - unfold write_universe in E3. apply bind_ok in E3. destruct E3 as (? & _ & E3). injection E3 as <- _. constructor; [inn|apply inner_ids].
  - refine (foldM_inner _ _ _ _ (l4, st4) E4 _); [|constructor]. intros [l0 st0] b acc' K1 K. unfold write_region in K1.
    apply bind_ok in K1. destruct K1 as (? & _ & K1). apply bind_ok in K1. destruct K1 as (? & _ & K1). injection K1 as <-. cbn [fst] in *.
    apply inner_app; [exact K|]. constructor; [inn|apply inner_ids].
  - eapply inner_units; [|exact E5]. intros. inn.
  - eapply inner_units; [|exact E6]. intros. inn.
Qed.
Lemma inner_ml_vrtx (ps : list (point F)) : forall v, Forall inner (ml_vrtx_lines v ps).
Proof. induction ps as [|p r IH]; intros v; cbn [ml_vrtx_lines]; constructor; [inn|apply IH]. Qed.
Lemma inner_borders es : forall o, Forall inner (border_lines o es).
Proof. induction es as [|e r IH]; intros o; cbn [border_lines]; constructor; [inn|apply IH]. Qed.
Lemma surface_whole k n (ss : list (MSurf F)) : whole_object "TSurf" (Some n) (surface_object k n ss).
Proof.
  unfold surface_object. cbv zeta.
  match goal with |- whole_object _ _ (_ ++ _ ++ _ ++ ?a ++ ?b ++ ?c ++ ?d ++ _) => exists (a ++ b ++ c ++ d) end. split.
  - rewrite <- preamble_is. rewrite <- !app_assoc. reflexivity.
  - apply inner_app; [|apply inner_app; [|apply inner_app]].
    + constructor; [inn|]. constructor; [inn|constructor].
    + apply inner_flat. intros [o s]. constructor; [inn|]. unfold write_surface. apply inner_app; [apply inner_ml_vrtx|].
      apply inner_map. apply inner_trgl.
    + apply inner_map. intros. inn.
    + apply inner_borders.
Qed.
End Ml.

(** ** Theorems *)

(** A saved surface, point set, curve or LightTSolid model is one whole object. *)
Theorem C133_surface (F : Num) (m : wmesh F tri) : exists ls, write_ts m = unlines ls /\ whole_object "TSurf" (wm_name m) ls.
Proof. exists (ts_lines m). split; [reflexivity|apply ts_object]. Qed.
Theorem C133_point_set (F : Num) (m : wmesh F unit) : exists ls, write_vs m = unlines ls /\ whole_object "VSet" (wm_name m) ls.
Proof. exists (vs_lines m). split; [reflexivity|apply vs_object]. Qed.
Theorem C133_curve (F : Num) around (m : wmesh F edge) text : write_pl around m = Ok text ->
  exists ls, text = unlines ls /\ whole_object "PLine" (Some (lit "edged_curve_name")) ls.
Proof.
  unfold write_pl. intros E. apply bind_ok in E. destruct E as (ls & E & K). injection K as <-. exists ls. split; [reflexivity|]. eapply pl_object. exact E.
Qed.
Theorem C133_solid_model (F : Num) (m : LModel F) sides text : write_lso m sides = Ok text ->
  exists ls, text = unlines ls /\ whole_object "LightTSolid" (l_title m) ls.
Proof.
  unfold write_lso. destruct (lso_lines m sides) as [ls| | |] eqn:E; try discriminate. intros K. injection K as <-.
  exists ls. split; [reflexivity|]. eapply lso_object. exact E.
Qed.

(** The names the objects of an ML file are given: those of the model boundaries, of the faults, of the horizons, then those of the
    surfaces that belong to nothing. *)
Definition written_name (uuid_text : Z -> bytes) (name : option bytes) (id : Z) : bytes :=
  map (fun c => if Ascii.eqb c SP then "_"%char else c) (match name with Some n => n | None => uuid_text id end).
Definition object_names {F} (uuid_text : Z -> bytes) (m : SModel F) : list (option bytes) :=
  map (fun c => Some (written_name uuid_text (c_name c) (c_id c))) (m_bounds m) ++
  map c_name (m_faults m) ++ map c_name (m_horizons m) ++
  map (fun s => Some (written_name uuid_text (s_name s) (s_id s)))
    (filter (fun s => negb (existsb (Z.eqb (s_id s))
       (flat_map c_items (m_bounds m) ++ flat_map c_items (m_faults m) ++ flat_map c_items (m_horizons m) ++ m_others m))) (m_surfaces m)).

(** A saved ML model is a Model3d object then one TSurf object for each boundary, fault, horizon and free surface, in this order, each
    under its name: nothing before, between or after them. *)
Theorem C133_model (F : Num) uuid_text (m : SModel F) us rs text : write_ml uuid_text m us rs = Ok text ->
  exists model surfaces, text = unlines (model ++ List.concat surfaces) /\ whole_object "Model3d" (m_title m) model /\
    Forall2 (whole_object "TSurf") (object_names uuid_text m) surfaces.
Proof.
  unfold write_ml. destruct (ml_lines uuid_text m us rs) as [ls| | |] eqn:E; try discriminate. intros K. injection K as <-.
  unfold ml_lines in E. apply bind_ok in E. destruct E as (cs & E1 & E). apply bind_ok in E. destruct E as (ss & E2 & E). apply ok_eq in E. subst ls.
  unfold write_model_surfaces in E2. apply bind_ok in E2. destruct E2 as (surfaces & E2 & K). injection K as <-.
  destruct (components_object uuid_text m us rs cs E1) as (body & -> & HB).
  exists (preamble "Model3d" (m_title m) ++ body ++ [lit "END"]), surfaces. split; [|split].
  - f_equal. rewrite <- preamble_is. rewrite <- !app_assoc. reflexivity.
  - exists body. split; [reflexivity|exact HB].
  - clear -E2. revert surfaces E2. 
    assert (H : forall secs names, Forall2 (fun (c : res bytes * res bytes * list Z) o => forall n, snd (fst c) = Ok n -> o = Some n) secs names ->
      forall surfaces, mapM (fun c : res bytes * res bytes * list Z => let '(k, n, items) := c in
       do n' <- n; do k' <- k; do ss <- mapM (surface_of m) items; Ok (surface_object k' n' ss)) secs = Ok surfaces ->
       Forall2 (whole_object "TSurf") names surfaces).
    { induction 1 as [|[[k n] items] o secs names H1 _ IH]; intros surfaces E; cbn [mapM] in E.
      - injection E as <-. constructor.
      - apply bind_ok in E. destruct E as (x & K1 & E). apply bind_ok in E. destruct E as (y & K2 & E). injection E as <-.
        constructor; [|now apply IH]. cbn [fst snd] in H1. apply bind_ok in K1. destruct K1 as (n' & -> & K1).
        apply bind_ok in K1. destruct K1 as (k' & _ & K1). apply bind_ok in K1. destruct K1 as (ss & _ & K1). injection K1 as <-.
        rewrite (H1 n' eq_refl). apply surface_whole. }
    apply H. unfold sections, object_names. 
    assert (G : forall A (f : A -> res bytes * res bytes * list Z) (g : A -> option bytes) l,
      (forall x n, snd (fst (f x)) = Ok n -> g x = Some n) ->
      Forall2 (fun (c : res bytes * res bytes * list Z) o => forall n, snd (fst c) = Ok n -> o = Some n) (map f l) (map g l)).
    { intros A f g l Hx. induction l; constructor; auto. }
    apply Forall2_app; [|apply Forall2_app; [|apply Forall2_app]].
    + apply G. cbn. intros x n K. injection K as <-. reflexivity.
    + apply G. cbn. unfold name_value. intros x n. destruct (c_name x); [intros K; injection K as <-; reflexivity|discriminate].
    + apply G. cbn. unfold name_value. intros x n. destruct (c_name x); [intros K; injection K as <-; reflexivity|discriminate].
    + apply G. cbn. intros x n K. injection K as <-. reflexivity.
Qed.
Print Assumptions C133_surface.
Print Assumptions C133_point_set.
Print Assumptions C133_curve.
Print Assumptions C133_solid_model.
Print Assumptions C133_model.

(** *** The property classes *)

(** The class of a property, as the file declares it *)
Definition class_of (name kind unit : bytes) (vertical : bool) : list bytes :=
  [lit "PROPERTY_CLASS_HEADER " ++ name ++ lit " {"; lit "kind:" ++ kind; lit "unit:" ++ unit; lit "name:" ++ name] ++
  (if vertical then [lit "is_Z: on"] else []) ++ [lit "}"].
(** Three classes for the coordinates, in metres, the third one vertical, then one without unit for each attribute *)
Definition classes (names : list bytes) : list bytes :=
  class_of "X" "X" "m" false ++ class_of "Y" "Y" "m" false ++ class_of "Z" "Z" "m" true ++
  flat_map (fun n => class_of n "Real Number" "unitless" false) names.
(** The object declares these classes between its properties and its data; without attribute no property is declared *)
Definition declares (kind : bytes) (name : option bytes) (names : list bytes) (data : bytes -> bool) (ls : list bytes) : Prop :=
  exists props body, ls = preamble kind name ++ props ++ classes names ++ body ++ [lit "END"] /\ Forall (fun l => data l = true) body /\
    (names = [] -> props = []) /\ (names <> [] -> Datatypes.length props = 8%nat /\ Forall (fun l => starts_with l "P" || starts_with l "NO_DATA_VALUES" || starts_with l "ESIZES" || starts_with l "UNITS" = true) props).
(** Attributes that are exported: the ones that are numbers; surfaces and point sets leave out the coordinates *)
Definition numbers {F} (coordinates : bool) (ws : list (wattr F)) : list bytes :=
  map w_name (filter (fun w => w_generic w && (coordinates || negb (beq (w_name w) "points"))) ws).
Definition begins (kws : list bytes) (l : bytes) : bool := existsb (starts_with l) kws.

Lemma props_split {F} (ws : list (wattr F)) : exists props, prop_lines ws = props ++ classes (map w_name ws) /\
  (map w_name ws = [] -> props = []) /\ (map w_name ws <> [] -> Datatypes.length props = 8%nat /\
    Forall (fun l => starts_with l "P" || starts_with l "NO_DATA_VALUES" || starts_with l "ESIZES" || starts_with l "UNITS" = true) props).
Proof.
  exists (match ws with [] => [] | _ => write_prop_header F (prop_header_of ws) end). split; [|split].
  - unfold prop_lines, classes, xyz_class_headers. f_equal. rewrite <- !app_assoc. f_equal. f_equal. f_equal.
    induction ws as [|w r IH]; [reflexivity|]. cbn [flat_map map]. now rewrite IH.
  - destruct ws; [reflexivity|discriminate].
  - destruct ws as [|w r]; [intros H; now contradiction H|]. intros _. split; [reflexivity|]. unfold write_prop_header.
    repeat (constructor; [reflexivity|]). constructor.
Qed.
Lemma filter_ext_eq {A} (f g : A -> bool) l : (forall x, f x = g x) -> filter f l = filter g l.
Proof. intros H. induction l as [|x r IH]; [reflexivity|]. cbn [filter]. rewrite H, IH. reflexivity. Qed.
Lemma numbers_exported {F} (ws : list (wattr F)) : numbers false ws = map w_name (filter exported ws).
Proof. unfold numbers. f_equal. Qed.
Lemma numbers_generic {F} (ws : list (wattr F)) : numbers true ws = map w_name (filter w_generic ws).
Proof. unfold numbers. f_equal. apply filter_ext_eq. intros x. cbn. apply andb_true_r. Qed.
Lemma begins_in k kws t : In k kws -> begins kws (k ++ t) = true.
Proof. intros H. apply existsb_exists. exists k. split; [exact H|apply starts_with_app]. Qed.
Lemma begins_kw {F} (us : list (wattr F)) t kws : begins (lit "VRTX " :: lit "PVRTX " :: kws) (vrtx_keyword us ++ SP :: t) = true.
Proof.
  unfold vrtx_keyword. destruct us; [apply (begins_in (lit "VRTX ") _ t)|apply (begins_in (lit "PVRTX ") _ t)]; [now left|right; now left].
Qed.
Lemma data_vrtx {F} (us ws : list (wattr F)) kws ps : forall v, Forall (fun l => begins (lit "VRTX " :: lit "PVRTX " :: kws) l = true) (vrtx_lines (vrtx_keyword us) ws v ps).
Proof. induction ps as [|p r IH]; intros v; cbn [vrtx_lines]; constructor; [apply begins_kw|apply IH]. Qed.
Lemma data_map {A} (f : A -> bytes) d l : (forall x, d (f x) = true) -> Forall (fun l => d l = true) (map f l).
Proof. intros H. apply Forall_forall. intros y K. apply in_map_iff in K. destruct K as (x & <- & _). apply H. Qed.

Theorem C133_surface_classes (F : Num) (m : wmesh F tri) : exists ls, write_ts m = unlines ls /\
  declares "TSurf" (wm_name m) (numbers false (wm_attrs m)) (begins [lit "VRTX "; lit "PVRTX "; lit "TFACE"; lit "TRGL "]) ls.
Proof.
  exists (ts_lines m). split; [reflexivity|]. destruct (props_split (filter exported (wm_attrs m))) as (props & E & H1 & H2).
  exists props, ([lit "TFACE"] ++ vrtx_lines (vrtx_keyword (wm_attrs m)) (filter exported (wm_attrs m)) 0 (wm_points m) ++ map trgl_line (wm_cells m)).
  split; [|split; [|split; rewrite numbers_exported; assumption]].
  - unfold ts_lines. rewrite E, numbers_exported, <- preamble_is, <- !app_assoc. reflexivity.
  - constructor; [reflexivity|]. apply Forall_app. split; [apply data_vrtx|]. apply data_map. intros [[a b] c].
    apply (begins_in (lit "TRGL ")). cbn; tauto.
Qed.
Theorem C133_point_set_classes (F : Num) (m : wmesh F unit) : exists ls, write_vs m = unlines ls /\
  declares "VSet" (wm_name m) (numbers false (wm_attrs m)) (begins [lit "VRTX "; lit "PVRTX "]) ls.
Proof.
  exists (vs_lines m). split; [reflexivity|]. destruct (props_split (filter exported (wm_attrs m))) as (props & E & H1 & H2).
  exists props, (vrtx_lines (vrtx_keyword (wm_attrs m)) (filter exported (wm_attrs m)) 0 (wm_points m)).
  split; [|split; [|split; rewrite numbers_exported; assumption]].
  - unfold vs_lines. rewrite E, numbers_exported, <- preamble_is, <- !app_assoc. reflexivity.
  - apply data_vrtx.
Qed.
Theorem C133_curve_classes (F : Num) around (m : wmesh F edge) text : write_pl around m = Ok text -> exists ls, text = unlines ls /\
  declares "PLine" (Some (lit "edged_curve_name")) (numbers true (wm_attrs m)) (begins [lit "VRTX "; lit "PVRTX "; lit "ILINE"; lit "SEG "]) ls.
Proof.
  unfold write_pl. intros E0. apply bind_ok in E0. destruct E0 as (ls & E0 & K). apply ok_eq in K. subst text. exists ls. split; [reflexivity|].
  unfold pl_lines in E0. apply bind_ok in E0. destruct E0 as (bs & _ & E0). apply ok_eq in E0. subst ls.
  destruct (props_split (filter w_generic (wm_attrs m))) as (props & E & H1 & H2).
  match goal with |- declares _ _ _ _ (_ ++ _ ++ _ ++ _ ++ ?b ++ _) => exists props, b end.
  split; [|split; [|split; rewrite numbers_generic; assumption]].
  - rewrite E, numbers_generic, <- preamble_is, <- !app_assoc. reflexivity.
  - apply Forall_forall. intros y K. apply in_flat_map in K. destruct K as (b & _ & K). revert y K. apply Forall_forall.
    unfold block_lines. apply Forall_app. split; [constructor; [reflexivity|constructor]|]. apply Forall_app. split.
    + match goal with |- Forall _ (pvrtx_lines _ _ ?p _ _) => generalize p end. intros pt.
      generalize (b_off b). induction (b_vs b) as [|v r IH]; intros n; cbn [pvrtx_lines]; constructor; [|apply IH].
      unfold pvrtx_line. destruct (pt v) as [[x y] z]. apply begins_kw.
    + apply Forall_app. split; [unfold seg_lines; apply data_map; intros; apply (begins_in (lit "SEG ")); cbn; tauto|].
      destruct (b_close b); [constructor; [apply (begins_in (lit "SEG ")); cbn; tauto|constructor]|constructor].
Qed.
Print Assumptions C133_surface_classes.
Print Assumptions C133_point_set_classes.
Print Assumptions C133_curve_classes.

(** The files of the examples of C04, C13, C45 and C33: they are written. *)
Example C133_example :
  match write_pl (by_edge (wm_cells ex_loops)) ex_loops with Ok _ => true | _ => false end = true /\
  match write_lso ex_lso ex_lsides with Ok _ => true | _ => false end = true /\
  match write_ml ex_uuid ex_model ex_usides ex_rsides with Ok _ => true | _ => false end = true /\
  numbers false (wm_attrs ex_surface) = [lit "my prop"] /\
  object_names ex_uuid ex_model = [Some (lit "outer_box"); Some (lit "big fault"); Some (lit "H1")].
Proof. split; [vm_compute; reflexivity|]. split; [vm_compute; reflexivity|]. split; [vm_compute; reflexivity|]. split; vm_compute; reflexivity. Qed.
