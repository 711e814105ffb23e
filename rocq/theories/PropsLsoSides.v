(** * The .lso export with the sides it computes itself (C143). *)
From Coq Require Import ZArith QArith List Lia Bool Ascii String.
From Verif Require Import Base Text TextFacts GocadModel MeshModel TsModel Spec GocadFacts TsFacts SignsModel PropsSigns LsoModel LsoFacts LsoRead LsoRound LsoFile LsoWhole LsoTrip LsoCount PropsLso PropsLsoAccept.
From Verif Require Import PropsMlBrep ExNum ExCheck.
Import ListNotations.
Local Open Scope string_scope.
Local Open Scope list_scope.
Local Open Scope Z_scope.

(** ** Model *)
(** determine_surface_to_regions_sides( model ) in the constructor of LSOOutputImpl (lso_output.cpp 58-63) *)
Definition lso_sides {F} (m : LModel F) (g : Shape) : res (list (Z * bool) * PairedSigns) :=
  determine_sides (sh_edge g) (sh_lines g) (sh_mesh g) (map g_items (l_mbounds m)) (map (fun b => (k_id b, k_bounds b)) (l_blocks m)).
(** LSOOutput::write (lso_output.cpp 287-293); the checks of the mesh types are not represented: all meshes of the model are of the right type *)
Definition export_lso {F} (m : LModel F) (g : Shape) : res bytes :=
  do '(us, rs) <- lso_sides m g;
  write_lso m (find_pair rs).

(** ** Specification *)
Definition lso_sides_found {F} (m : LModel F) (g : Shape) : Prop := exists us rs, lso_sides m g = Ok (us, rs).
(** The first boundary of the block is in a horizon, a fault or a model boundary *)
Definition first_shown {F} (m : LModel F) (b : LBlock F) : Prop :=
  exists s r, k_bounds b = s :: r /\ exists c, In c (l_horizons m ++ l_faults m ++ l_mbounds m) /\ In s (g_items c).

Lemma lso_sides_cover {F} (m : LModel F) g us rs : lso_sides m g = Ok (us, rs) ->
  forall b i, In b (l_blocks m) -> In i (k_bounds b) -> exists x, find_pair rs (k_id b) i = Some x.
Proof.
  intros E b i Hb Hi. destruct (sides_cover _ _ _ _ _ _ _ E) as [_ R]. apply (R (k_id b) (k_bounds b) i); [|exact Hi].
  apply in_map_iff. now exists b.
Qed.
Lemma shown_collected {F} (m : LModel F) s : In s (flat_map g_items (collections m)) <-> exists c, In c (l_horizons m ++ l_faults m ++ l_mbounds m) /\ In s (g_items c).
Proof. unfold collections. apply in_flat_map. Qed.

(** A model that is_saveable accepts is exported exactly when the sides are found, every unique vertex is one of a block and the first boundary
    of every block is in a horizon, a fault or a model boundary. *)
Theorem C143_exported_iff {F} (m : LModel F) g : sound_model m -> lso_saveable m = true ->
  (exists text, export_lso m g = Ok text) <->
  lso_sides_found m g /\ (forall l, In l (l_uv m) -> l <> []) /\ (forall b, In b (l_blocks m) -> first_shown m b).
Proof.
  intros SO AC. unfold export_lso, lso_sides_found. split.
  - intros [text E]. apply bind_ok in E as ([us rs] & E1 & E). split; [eauto|].
    destruct (proj1 (proj1 (C127_exported_iff m (find_pair rs) SO AC)) (ex_intro _ text E)) as [U B]. rewrite Forall_forall in U, B. split; [exact U|].
    intros b Hb. destruct (B b Hb) as (s & r & side & K1 & _ & K3). exists s, r. split; [exact K1|]. now apply shown_collected.
  - intros ((us & rs & E) & U & B). rewrite E. cbn [bind]. apply (proj1 (C127_exported_iff m (find_pair rs) SO AC)). split; [now apply Forall_forall|].
    apply Forall_forall. intros b Hb. destruct (B b Hb) as (s & r & K1 & K2). destruct (lso_sides_cover m g us rs E b s Hb) as [x X].
    { rewrite K1. now left. }
    exists s, r, x. split; [exact K1|]. split; [exact X|]. now apply shown_collected.
Qed.
Print Assumptions C143_exported_iff.

(** What is exported with those sides is loaded again: name, unique vertices, blocks, surfaces under their collections (C46, C82) *)
Theorem C143_reloaded {F} (m : LModel F) g : num_ok F -> (exists sides, lso_ok m sides) -> lso_sides_found m g ->
  exists text (m' : LsoIn F), export_lso m g = Ok text /\ read_lso F text = Ok m' /\
    i_title m' = option_map normalise (l_title m) /\ i_nuv m' = lenz (l_uv m) /\
    Forall2 (fun b r => block_like b r /\ r_vattrs r = [] /\ r_tattrs r = []) (l_blocks m) (i_blocks m') /\
    Forall2 (fun i h => exists s name, lsurf_of m i = Ok s /\ named_by (collections m) i name /\
               surface_from m (normalise name) (surface_triangles s) h) (all_ids m) (i_surfs m').
Proof.
  intros HF [sides O] (us & rs & E). unfold export_lso. rewrite E. cbn [bind].
  assert (O2 : lso_ok m (find_pair rs)).
  { destruct O. constructor; try assumption. rewrite Forall_forall in lo_sides |- *. intros b Hb. destruct (lo_sides b Hb) as (s & r & side & K1 & _ & K3).
    destruct (lso_sides_cover m g us rs E b s Hb) as [x X]; [rewrite K1; now left|]. exists s, r, x. auto. }
  destruct (lso_saved HF m (find_pair rs) O2) as (text & m' & K1 & K2 & K3 & K4 & K5 & K6 & _). exists text, m'. auto 10.
Qed.
Print Assumptions C143_reloaded.

(** Finding: a model without model boundary, which is_saveable accepts and the .ml export completes itself, is always refused by the .lso export. *)
Theorem C143_without_boundary {F} (m : LModel F) g : l_mbounds m = [] -> export_lso m g = Throw ExData.
Proof. intros H. unfold export_lso, lso_sides, determine_sides. rewrite H. reflexivity. Qed.
Print Assumptions C143_without_boundary.

(** ** A tetrahedron *)
Definition tetra_lsurf (s : Z) : LSurfW := let '(a, b, c) := ex_tri s in mkLSurfW s [(0, 1, 2)] [a; b; c].
Definition tetra_lso (bounds : list LColl) : LModel ExNum :=
  mkLModel (F:=ExNum) (Some (lit "tetra")) [[(7, 0)]; [(7, 1)]; [(7, 2)]; [(7, 3)]]
    [mkLBlock (F:=ExNum) 7 (lit "b7") [(0, 0, 0); (1, 0, 0); (0, 1, 0); (0, 0, 1)] [(0, 1, 2, 3)] [0; 1; 2; 3] [30; 40; 20; 10]]
    (map tetra_lsurf [10; 20; 30; 40]) [] [mkLColl (lit "f") [30]] bounds.
Definition tetra_boxes : list LColl := [mkLColl (lit "two") [10; 20]; mkLColl (lit "three") [30]; mkLColl (lit "four") [40]].
Definition tetra_sides (b s : Z) : option bool := if s =? 30 then Some false else None.
Lemma tetra_lso_ok : lso_ok (tetra_lso tetra_boxes) tetra_sides.
Proof.
  split.
  - apply consistentb_ok; [cbn; nodup| |reflexivity]. cbn [tetra_lso l_uv]. repeat (apply Forall_cons; [nodup|]). constructor.
  - apply colocatedb_ok. reflexivity.
  - cbn [tetra_lso l_uv]. repeat (apply Forall_cons; [discriminate|]). constructor.
  - vm_compute. reflexivity.
  - discriminate.
  - cbn [tetra_lso l_blocks]. repeat (apply Forall_cons; [split; [discriminate|]; cbn [k_tets k_points];
      repeat (apply Forall_cons; [cbn [quad_list]; repeat (apply Forall_cons; [vm_compute; split; (discriminate || reflexivity)|]); constructor|]); constructor|]). constructor.
  - cbn [tetra_lso l_blocks]. repeat (apply Forall_cons; [apply tokenb_ok; reflexivity|]). constructor.
  - cbn. nodup.
  - cbn [tetra_lso l_surfs map tetra_lsurf ex_tri]. repeat (apply Forall_cons; [split; cbn [f_tris f_uv];
      [discriminate
      |repeat (apply Forall_cons; [cbn [tri_list]; repeat (apply Forall_cons; [vm_compute; split; (discriminate || reflexivity)|]); apply Forall_nil|]); apply Forall_nil
      |repeat (apply Forall_cons; [vm_compute; split; (discriminate || reflexivity)|]); apply Forall_nil]|]). apply Forall_nil.
  - cbn [tetra_lso tetra_boxes collections l_horizons l_faults l_mbounds app].
    repeat (apply Forall_cons; [cbn [g_items]; repeat (apply Forall_cons; [cbn; tauto|]); constructor|]). constructor.
  - cbn [tetra_lso tetra_boxes collections l_horizons l_faults l_mbounds app g_name]. repeat (apply Forall_cons; [apply plainb_ok; reflexivity|]). constructor.
  - cbn [tetra_lso l_blocks]. repeat (apply Forall_cons; [do 3 eexists; split; [reflexivity|]; split; [reflexivity|]; cbn; tauto|]). constructor.
  - intros t E. injection E as <-. apply lineb_ok. reflexivity.
Qed.
Lemma ok_sound {F} (m : LModel F) sides : lso_ok m sides -> sound_model m /\ lso_saveable m = true.
Proof.
  intros []. assert (HS := lo_surfs). assert (HB := lo_blocks). split.
  - constructor; try assumption.
    + eapply Forall_impl; [|exact HB]. intros b [_ H]. exact H.
    + eapply Forall_impl; [|exact HS]. intros s [_ H _]. exact H.
    + eapply Forall_impl; [|exact HS]. intros s [_ _ H]. exact H.
    + intros i Hi. apply in_flat_map in Hi as (c & Hc & Hi). rewrite Forall_forall in lo_items. specialize (lo_items c Hc). rewrite Forall_forall in lo_items.
      apply lo_items, in_map_iff in Hi as (s & E & Hs). eauto.
  - apply saveable_iff. split.
    + eapply Forall_impl; [|exact HS]. intros s [H _ _]. exact H.
    + eapply Forall_impl; [|exact HB]. intros b [H _]. exact H.
Qed.
Example C143_case :
  sound_model (tetra_lso tetra_boxes) /\ lso_saveable (tetra_lso tetra_boxes) = true /\ lso_ok (tetra_lso tetra_boxes) tetra_sides /\
  lso_sides_found (tetra_lso tetra_boxes) tetra_shape /\
  match export_lso (tetra_lso tetra_boxes) tetra_shape with Ok t => existsb (beq (lit "MODEL_REGION b7 -1")) (pending (open_text t)) | _ => false end = true /\
  (* the same model whose outside is not described *)
  sound_model (tetra_lso []) /\ lso_saveable (tetra_lso []) = true.
Proof.
  destruct (ok_sound _ _ tetra_lso_ok) as [S1 S2]. split; [exact S1|]. split; [exact S2|]. split; [exact tetra_lso_ok|]. split; [|split; [vm_compute; reflexivity|]].
  - exists [(10, true); (20, false); (30, true); (40, true)], [(7, 30, false); (7, 40, false); (7, 20, true); (7, 10, false)]. exact ex_sides.
  - split; [|exact S2]. destruct S1. constructor; try assumption.
    + apply consistentb_ok; [cbn; nodup| |reflexivity]. cbn [tetra_lso l_uv]. repeat (apply Forall_cons; [nodup|]). constructor.
    + intros i Hi. apply so_items. cbn [tetra_lso collections l_horizons l_faults l_mbounds app flat_map g_items] in Hi. cbn in Hi |- *. tauto.
Qed.
