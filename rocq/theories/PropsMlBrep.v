(** * The .ml export of models with the sides it computes itself (C142). *)
From Coq Require Import ZArith QArith List Lia Bool Ascii String.
From Verif Require Import Base Text TextFacts GocadModel MeshModel TsModel Spec GocadFacts TsFacts SignsModel PropsSigns MlModel MlFacts MlFile MlRound PropsMl.
From Verif Require Import PropsMlAccept ExNum ExCheck.
Import ListNotations.
Local Open Scope string_scope.
Local Open Scope list_scope.
Local Open Scope Z_scope.

(** ** Model *)
(** A BRep: its surfaces, model boundaries, other collections, blocks. *)
Record BModel (F : Num) := mkBModel {
  bm_title : option bytes;
  bm_surfaces : list (MSurf F);
  bm_bounds : list (Coll unit);
  bm_others : list (Coll unit);
  bm_blocks : list MBlock
}.
Arguments mkBModel {F}. Arguments bm_title {F}. Arguments bm_surfaces {F}. Arguments bm_bounds {F}.
Arguments bm_others {F}. Arguments bm_blocks {F}.

(** [model_.collections( surface.id() )], with for each whether it is a ModelBoundary *)
Definition collections_of {F} (m : BModel F) (id : Z) : list (bool * Coll unit) :=
  filter (fun c => existsb (Z.eqb id) (c_items (snd c)))
    (map (pair true) (bm_bounds m) ++ map (pair false) (bm_others m)).
(** MLOutputImplBRep::unclassified_tsurfs (ml_output_brep.cpp 52-73) *)
Definition brep_unclassified {F} (m : BModel F) : list (MSurf F) :=
  filter (fun s => negb (fold_left (fun part c => if fst c : bool then true else part) (collections_of m (s_id s)) false)) (bm_surfaces m).
(** The four functions that write_file calls for the geological objects are empty for a BRep (ml_output_brep.cpp 48-50, 75-77) *)
Definition as_model {F} (m : BModel F) : SModel F :=
  mkSModel (bm_title m) (bm_surfaces m) (bm_bounds m) [] [] [] (bm_blocks m) [] [].
(** What the code takes from the geometry and the unique vertices to find the sides *)
Record Shape := mkShape { sh_edge : Z -> Z -> Z -> bool; sh_lines : list LineView; sh_mesh : Z -> SMesh }.
(** The constructor of MLOutputImpl (ml_output_impl.hpp 119-129) and write_file (104-116) *)
Definition export_ml {F} (uuid_text : Z -> bytes) (m : SModel F) (g : Shape) : res bytes :=
  do '(us, rs) <- determine_sides (sh_edge g) (sh_lines g) (sh_mesh g) (map c_items (m_bounds m))
                    (map (fun b => (b_id b, b_boundaries b)) (m_blocks m));
  write_ml uuid_text m us rs.
Definition export_brep_ml {F} (uuid_text : Z -> bytes) (m : BModel F) (g : Shape) : res bytes :=
  export_ml uuid_text (as_model m) g.

(** The unclassified surfaces of [as_model] are those of the BRep *)
Lemma part_fold (cs : list (bool * Coll unit)) : forall b, fold_left (fun part c => if fst c : bool then true else part) cs b = b || existsb fst cs.
Proof.
  induction cs as [|[k c] cs IH]; intros b; cbn [fold_left existsb]; [now rewrite orb_false_r|].
  rewrite IH. cbn [fst]. destruct k, b; reflexivity.
Qed.
Lemma existsb_eq_in i l : existsb (Z.eqb i) l = true <-> In i l.
Proof. rewrite existsb_exists. split; [intros (x & H & E); apply Z.eqb_eq in E; now subst|intros H; exists i; split; [exact H|apply Z.eqb_refl]]. Qed.
Lemma as_model_unclassified {F} (m : BModel F) : unclassified (as_model m) = brep_unclassified m.
Proof.
  unfold unclassified, brep_unclassified. cbn [as_model m_bounds m_faults m_horizons m_others m_surfaces flat_map app]. rewrite app_nil_r.
  apply filter_ext. intros s. f_equal. rewrite part_fold. cbn [orb]. apply eq_iff_eq_true. rewrite existsb_eq_in, in_flat_map, existsb_exists.
  unfold collections_of. split.
  - intros (c & Hc & Hi). exists (true, c). split; [|reflexivity]. apply filter_In. split.
    + apply in_or_app. left. now apply in_map.
    + cbn [snd]. now apply existsb_eq_in.
  - intros ([k c] & Hc & E). cbn [fst] in E. subst k. apply filter_In in Hc as [Hc Hi]. cbn [snd] in Hi. apply existsb_eq_in in Hi.
    exists c. split; [|exact Hi]. apply in_app_or in Hc as [Hc|Hc]; apply in_map_iff in Hc as (x & E & Hx); [now injection E as ->|discriminate E].
Qed.

(** ** The sides that are found cover everything that is written *)
Lemma find_combine (l : list Z) : forall (rs : list bool) i, List.length rs = List.length l -> In i l -> exists x, find_id (combine l rs) i = Some x.
Proof.
  induction l as [|a l IH]; intros [|r rs] i L Hi; cbn in L; try discriminate; [destruct Hi|].
  cbn [combine]. rewrite find_id_cons. destruct (Z.eqb_spec a i) as [->|N]; [eauto|]. destruct Hi as [Hi|Hi]; [contradiction|].
  apply IH; [lia|exact Hi].
Qed.
Lemma universe_covers meshes tab bs u : determine_universe_sides meshes tab bs = Ok u ->
  forall i, In i (List.concat bs) -> exists x, find_id u i = Some x.
Proof.
  unfold determine_universe_sides, universe_sides_from. intros E i Hi. apply bind_ok in E as (rs & E1 & E). apply bind_ok in E as (c & _ & E).
  injection E as <-. rewrite find_emplaces_id. destruct (find_combine _ rs i (signs_length _ _ _ E1) Hi) as [x X].
  change (find_id [] i) with (@None bool). cbv iota. rewrite X. eexists. reflexivity.
Qed.
Lemma regions_cover_from meshes tab blocks : forall m r, foldM (fun m b => do rs <- determine_relative_signs (snd b) tab; region_sides_from meshes (fst b) (snd b) rs m) blocks m = Ok r ->
  (forall b i x, find_pair m b i = Some x -> exists y, find_pair r b i = Some y) /\
  (forall b ids i, In (b, ids) blocks -> In i ids -> exists x, find_pair r b i = Some x).
Proof.
  induction blocks as [|[a ids] blocks IH]; intros m r E; cbn [foldM] in E.
  - apply ok_inj in E. subst r. split; [eauto|intros b ids i []].
  - apply bind_ok in E as (m1 & E1 & E). destruct (IH m1 r E) as [K1 K2]. cbn [fst snd] in E1. apply bind_ok in E1 as (rs & E2 & E1).
    unfold region_sides_from in E1. apply bind_ok in E1 as (c & _ & E1). injection E1 as <-. split.
    + intros b i x X. apply (K1 b i x). rewrite find_emplaces_pair, X. reflexivity.
    + intros b ids' i [H|H] Hi; [|now apply (K2 b ids' i)]. injection H as -> ->.
      destruct (find_combine ids' rs i (signs_length _ _ _ E2) Hi) as [x X].
      destruct (find_pair m b i) as [y|] eqn:Y.
      * apply (K1 b i y). rewrite find_emplaces_pair, Y. reflexivity.
      * apply (K1 b i (region_side c x)). rewrite find_emplaces_pair, Y, Z.eqb_refl, X. reflexivity.
Qed.
Lemma sides_cover edge lines meshes bs blocks u r : determine_sides edge lines meshes bs blocks = Ok (u, r) ->
  (forall i, In i (List.concat bs) -> exists x, find_id u i = Some x) /\
  (forall b ids i, In (b, ids) blocks -> In i ids -> exists x, find_pair r b i = Some x).
Proof.
  unfold determine_sides. intros E. apply bind_ok in E as (t & _ & E). cbv zeta in E. apply bind_ok in E as (u' & E1 & E). apply bind_ok in E as (r' & E2 & E).
  injection E as <- <-. split; [now apply (universe_covers _ _ _ _ E1)|].
  apply (regions_cover_from _ _ _ _ _ E2).
Qed.

(** ** Exported models *)
Section Exported.
Context {F : Num} (uuid_text : Z -> bytes).

(** The sides are found: every block and the outside have boundaries linked by border lines, enclosing a volume (C16) *)
Definition sides_found (m : SModel F) (g : Shape) : Prop :=
  exists us rs, determine_sides (sh_edge g) (sh_lines g) (sh_mesh g) (map c_items (m_bounds m)) (map (fun b => (b_id b, b_boundaries b)) (m_blocks m)) = Ok (us, rs).

(** A structural model whose sides are found is exported exactly when its collections have names, no horizon is an erosion or a
    baselap, the surfaces shown have triangles and the surfaces of its blocks are shown. *)
Theorem C142_structural_model (m : SModel F) g : sound_structure m ->
  (exists text, export_ml uuid_text m g = Ok text) <->
  sides_found m g /\ all_named m /\ known_contacts m /\
  (forall s, In s (m_surfaces m) -> shown m (s_id s) -> s_tris s <> []) /\
  (forall b i, In b (m_blocks m) -> In i (b_boundaries b ++ b_internals b) -> shown m i).
Proof.
  intros S0. unfold export_ml, sides_found. split.
  - intros [text E]. apply bind_ok in E as ([us rs] & E1 & E).
    assert (W : writable m us rs) by (apply (C130_exported_iff uuid_text m us rs S0); eauto).
    destruct W. split; [eauto|]. repeat (split; [assumption|]). intros b i Hb Hi. apply in_app_or in Hi as [Hi|Hi]; [now apply (w_blocks b i)|now apply (w_internals b i)].
  - intros ((us & rs & E) & H1 & H2 & H3 & H4). rewrite E. cbn [bind]. apply (C130_exported_iff uuid_text m us rs S0).
    destruct (sides_cover _ _ _ _ _ _ _ E) as [U R]. constructor; try assumption.
    + intros i Hi. apply U. now rewrite <- flat_map_concat_map.
    + intros b i Hb Hi. split; [|apply (H4 b i Hb), in_or_app; now left]. apply (R (b_id b) (b_boundaries b) i); [|exact Hi].
      apply in_map_iff. now exists b.
    + intros b i Hb Hi. apply (H4 b i Hb), in_or_app. now right.
Qed.

(** A BRep whose sides are found is exported exactly when every surface has a triangle: names are not needed, and surfaces in other
    collections are exported too. *)
Definition sound_brep (m : BModel F) : Prop :=
  NoDup (map s_id (bm_surfaces m) ++ map b_id (bm_blocks m)) /\
  (forall s a b c, In s (bm_surfaces m) -> In (a, b, c) (s_tris s) ->
     0 <= a < lenz (s_points s) /\ 0 <= b < lenz (s_points s) /\ 0 <= c < lenz (s_points s)) /\
  (forall c i, In c (bm_bounds m) -> In i (c_items c) -> In i (map s_id (bm_surfaces m))) /\
  (forall b i, In b (bm_blocks m) -> In i (b_boundaries b ++ b_internals b) -> In i (map s_id (bm_surfaces m))).
Theorem C142_brep (m : BModel F) g : sound_brep m ->
  (exists text, export_brep_ml uuid_text m g = Ok text) <->
  sides_found (as_model m) g /\ forall s, In s (bm_surfaces m) -> s_tris s <> [].
Proof.
  intros (B1 & B2 & B3 & B4). unfold export_brep_ml. rewrite C142_structural_model.
  - assert (Sh : forall i, shown (as_model m) i) by (intros i; right; exact (fun H => H)).
    split.
    + intros (H & _ & _ & H3 & _). split; [exact H|]. intros s Hs. exact (H3 s Hs (Sh _)).
    + intros [H H3]. split; [exact H|]. split; [repeat split; intros c []|]. split; [intros c []|]. split; [intros s Hs _; now apply H3|]. intros; apply Sh.
  - constructor; cbn [as_model m_surfaces m_blocks m_bounds m_faults m_horizons m_units m_fblocks flat_map app].
    + exact B1.
    + apply Forall_forall. intros s Hs. apply Forall_forall. intros [[a b] c] Ht. now apply (B2 s a b c).
    + intros i Hi. rewrite app_nil_r in Hi. apply in_flat_map in Hi as (c & Hc & Hi). now apply (B3 c).
    + exact B4.
    + intros u b [].
Qed.
End Exported.
Print Assumptions C142_structural_model.
Print Assumptions C142_brep.

(** ** Loading what was exported *)
Lemma exportable_sides {F : Num} uuid_text (m : SModel F) us0 rs0 us rs : exportable uuid_text m us0 rs0 ->
  (forall i, In i (flat_map c_items (m_bounds m)) -> exists x, find_id us i = Some x) ->
  (forall b i, In b (m_blocks m) -> In i (b_boundaries b) -> exists x, find_pair rs (b_id b) i = Some x) ->
  exportable uuid_text m us rs.
Proof. intros [] U R. constructor; assumption. Qed.
(** With the sides found by the export itself the model is loaded again (C37: blocks, surfaces, collections and units) *)
Theorem C142_reloaded : forall (F : Num) uuid_text (m : SModel F) g,
  num_ok F -> coords_not_keywords F -> (exists us rs, exportable uuid_text m us rs) -> sides_found m g ->
  exists text out nb, export_ml uuid_text m g = Ok text /\ read_ml F text = Ok out /\ same_model uuid_text m out nb.
Proof.
  intros F uuid_text m g HF HK (us0 & rs0 & E0) (us & rs & E). unfold export_ml. rewrite E. cbn [bind].
  destruct (sides_cover _ _ _ _ _ _ _ E) as [U R]. apply ML_round_trip; try assumption.
  apply (exportable_sides uuid_text m us0 rs0 us rs E0).
  - intros i Hi. apply U. now rewrite <- flat_map_concat_map.
  - intros b i Hb Hi. apply (R (b_id b) (b_boundaries b) i); [|exact Hi]. apply in_map_iff. now exists b.
Qed.
Print Assumptions C142_reloaded.

(** ** A tetrahedron: three model boundaries, one block, a surface also in another collection *)
Definition tetra_point (v : Z) : Z * Z * Z := match v with 0 => (0, 0, 0) | 1 => (1, 0, 0) | 2 => (0, 1, 0) | _ => (0, 0, 1) end.
Definition tetra_surf (s : Z) : MSurf ExNum :=
  let '(a, b, c) := ex_tri s in
  mkMSurf (F:=ExNum) s None [tetra_point a; tetra_point b; tetra_point c] [(0, 1, 2)] [[(0, 1); (1, 2); (2, 0)]] [0; 1; 2].
Definition tetra (others : list (Coll unit)) (bounds : list (Coll unit)) : BModel ExNum :=
  mkBModel (F:=ExNum) (Some (lit "tetra")) [tetra_surf 10; tetra_surf 20; tetra_surf 30; tetra_surf 40] bounds others [mkBlock 7 None [30; 40; 20; 10] []].
Definition tetra_bounds : list (Coll unit) := [mkColl 1 (Some (lit "two sides")) tt [10; 20]; mkColl 2 None tt [30]; mkColl 3 None tt [40]].
Definition tetra_brep : BModel ExNum := tetra [mkColl 4 (Some (lit "some")) tt [20; 30]] tetra_bounds.
Definition tetra_shape : Shape := mkShape PropsSigns.ex_edge PropsSigns.ex_lines PropsSigns.ex_mesh.
Lemma tetra_sound o b : (forall c i, In c b -> In i (c_items c) -> In i [10; 20; 30; 40]) -> sound_brep (tetra o b).
Proof.
  intros Hb. split; [cbn; nodup|]. split; [|split].
  - intros s a' b' c' Hs Ht. cbn [tetra bm_surfaces In] in Hs. cases; cbn in Ht; cases; injection Ht as <- <- <-; cbn; lia.
  - exact Hb.
  - intros k i [<-|[]]. cbn. intros H. cases; tauto.
Qed.
Lemma tetra_proper s : proper_surface (tetra_surf s).
Proof.
  unfold tetra_surf. destruct (ex_tri s) as [[a b] c]. constructor.
  - discriminate.
  - cbn [s_tris s_points lenz List.length]. repeat (apply Forall_cons; [cbn; lia|]). constructor.
  - intros loop e. cbn [s_loops s_points]. intros [<-|[]]. cbn [In]. intros H. cases; cbn; lia.
Qed.
Example C142_case :
  sound_brep tetra_brep /\ sides_found (as_model tetra_brep) tetra_shape /\
  (exists us rs, exportable ex_uuid (as_model tetra_brep) us rs) /\ brep_unclassified tetra_brep = [] /\
  match export_brep_ml ex_uuid tetra_brep tetra_shape with
  | Ok t => match read_ml ExNum t with
            | Ok out => leqb beq (map bi_name (o_blocks out)) [lit "uuid7"] && (List.length (o_colls out) =? 3)%nat && (List.length (o_meshes out) =? 4)%nat
            | _ => false end
  | _ => false end = true.
Proof.
  split; [|split; [|split; [|split; [reflexivity|vm_compute; reflexivity]]]].
  - apply tetra_sound. intros c i. cbn [tetra_bounds In]. intros H. cases; cbn; tauto.
  - exists [(10, true); (20, false); (30, true); (40, true)], [(7, 30, false); (7, 40, false); (7, 20, true); (7, 10, false)]. exact ex_sides.
  - exists [(10, true); (20, false); (30, true); (40, true)], [(7, 30, false); (7, 40, false); (7, 20, true); (7, 10, false)].
    constructor.
    + cbn. nodup.
    + cbn [m_surfaces as_model tetra_brep tetra bm_surfaces]. repeat (apply Forall_cons; [apply tetra_proper|]). constructor.
    + cbn. tauto.
    + cbn. nodup.
    + intros s [].
    + vm_compute. intros g H. cases; discriminate.
    + split; intros c [].
    + intros g H. vm_compute in H. cases; apply cleanb_ok; reflexivity.
    + vm_compute. nodup.
    + intros n [= <-]. now apply lineb_ok.
    + intros c [].
    + intros s. cbn. intros H. cases; eexists; reflexivity.
    + intros b s [<-|[]]. cbn [b_boundaries In]. intros H. cases; eexists; reflexivity.
    + intros b [<-|[]]. split; [apply cleanb_ok; reflexivity|]. split; [discriminate|]. split; [cbn; nodup|]. split; [cbn; intros; tauto|]. cbn. lia.
    + intros u [].
    + cbn. lia.
Qed.

(** Findings: with is_saveable true the export of a BRep stops when the outside is made of separate parts (here two surfaces that share no border line),
    and is undefined behaviour when a block has no boundary. *)
Definition two_parts : BModel ExNum :=
  mkBModel (F:=ExNum) None [ex_surf 1 0; ex_surf 2 10] [mkColl 5 None tt [1; 2]] [] [].
Definition no_boundary : BModel ExNum := 
  mkBModel (F:=ExNum) (Some (lit "tetra")) [tetra_surf 10; tetra_surf 20; tetra_surf 30; tetra_surf 40] tetra_bounds []
    [mkBlock 7 None [30; 40; 20; 10] []; mkBlock 8 None [] []].
Theorem C142_accepted_not_exported_refuted :
  sound_brep two_parts /\ (exists e, export_brep_ml ex_uuid two_parts tetra_shape = Throw e) /\
  sound_brep no_boundary /\ export_brep_ml ex_uuid no_boundary tetra_shape = UB.
Proof.
  split; [|split; [apply is_Throw_ok; vm_compute; reflexivity|split; [|apply is_UB_ok; vm_compute; reflexivity]]].
  - split; [cbn; nodup|]. split; [|split].
    + intros s a' b' c' Hs Ht. cbn [two_parts bm_surfaces In] in Hs. cases; cbn in Ht; cases; injection Ht as <- <- <-; cbn; lia.
    + intros c i [<-|[]]. cbn. tauto.
    + intros k i [].
  - split; [cbn; nodup|]. split; [|split].
    + intros s a' b' c' Hs Ht. cbn [no_boundary bm_surfaces In] in Hs. cases; cbn in Ht; cases; injection Ht as <- <- <-; cbn; lia.
    + intros c i. cbn [no_boundary bm_bounds tetra_bounds In]. intros H. cases; cbn; tauto.
    + intros k i [<-|[<-|[]]]; cbn; tauto.
Qed.
Print Assumptions C142_accepted_not_exported_refuted.
