(** * C110: the formats of the library are found by the kind of object and the extension of the file. *)
From Coq Require Import List Bool Ascii String Permutation.
From Verif Require Import Base Text TextFacts Registry.
Import ListNotations.
Local Open Scope string_scope.
Local Open Scope list_scope.

(** ** Specification *)
(** The readers and writers the library declares (IH/mesh/internal/*.hpp, IH/model/internal/*.hpp): the class each one derives
    from and its extensions. *)
Inductive a_format : factory -> bytes -> creator -> Prop :=
| ts_in : a_format TriangulatedSurfaceIn "ts" TSInput                         (* ts_input.hpp 40-53 *)
| ts_out : a_format TriangulatedSurfaceOut "ts" TSOutput                      (* ts_output.hpp 42-55 *)
| dem_in : a_format PolygonalSurfaceIn "dem" DEMInput                         (* dem_input.hpp 34-47 *)
| polytiff_in e : In e (map lit ["tif"; "tiff"]) -> a_format PolygonalSurfaceIn e PolyTIFFInput (* polytiff_input.hpp 40-53 *)
| fem_out : a_format TetrahedralSolidOut "fem" SolidFemOutput                 (* fem_output.hpp 39-52 *)
| pl_out : a_format EdgedCurveOut "pl" PLOutput                               (* pl_output.hpp 42-55 *)
| wl_in : a_format EdgedCurveIn "wl" WLInput                                  (* wl_input.hpp 40-53 *)
| dat_in : a_format EdgedCurveIn "dat" WellDatInput                           (* well_dat_input.hpp 40-53 *)
| txt_in : a_format EdgedCurveIn "txt" WellTxtInput                           (* well_txt_input.hpp 40-53 *)
| dev_in : a_format EdgedCurveIn "dev" WellDevInput                           (* well_dev_input.hpp 40-53 *)
| pl_in : a_format EdgedCurveIn "pl" PLInput                                  (* pl_input.hpp 40-53 *)
| geotiff_in e : In e (map lit ["tif"; "tiff"]) -> a_format LightRegularGrid2In e GEOTIFFInput (* geotiff_input.hpp 34-47 *)
| vo_in : a_format RegularGridIn "vo" VOInput                                 (* vo_input.hpp 42-55 *)
| grdecl_in : a_format HybridSolidIn "grdecl" GRDECLInput                     (* grdecl_input.hpp 39-52 *)
| vs_in : a_format PointSetIn "vs" VSInput                                    (* vs_input.hpp 40-53 *)
| vs_out : a_format PointSetOut "vs" VSOutput                                 (* vs_output.hpp 43-56 *)
| ml_in : a_format StructuralModelIn "ml" MLInput                             (* ml_input.hpp 33-46 *)
| lso_in : a_format StructuralModelIn "lso" LSOInput                          (* lso_input.hpp 33-46 *)
| ml_out : a_format StructuralModelOut "ml" MLOutputStructuralModel           (* ml_output_structural_model.hpp 36-49 *)
| lso_out : a_format StructuralModelOut "lso" LSOOutput                       (* lso_output.hpp 36-49 *)
| shp_in e : In e (map lit ["shp"; "shz"]) -> a_format SectionIn e SHPInput   (* shp_input.hpp 34-47 *)
| brep_ml_out : a_format BRepOut "ml" MLOutputBRep                            (* ml_output_brep.hpp 36-49 *)
| brep_fem_out : a_format BRepOut "fem" BRepFemOutput                         (* brep_fem_output.hpp 38-51 *)
| skua2_in : a_format HorizonsStack2In "xml" HorizonStackSKUAInput2           (* horizons_stack_skua_input.hpp 36-49 *)
| skua3_in : a_format HorizonsStack3In "xml" HorizonStackSKUAInput3
| strati_in : a_format StratigraphicModelIn "lso" StratigraphicLSOInput.      (* strati_lso_input.hpp 15-28 *)

(** ** Registration *)
Lemma factory_eqb_eq a b : factory_eqb a b = true <-> a = b.
Proof. split; [now destruct a, b|intros ->; now destruct b]. Qed.
Lemma creator_of_app r r' f e :
  creator_of (r ++ r') f e = match creator_of r f e with Some k => Some k | None => creator_of r' f e end.
Proof.
  unfold creator_of. induction r as [|x r IH]; [reflexivity|]. cbn [app find]. destruct (same_key f e x); [reflexivity|exact IH].
Qed.
Definition call (r : registry) (x : factory * bytes * creator) : registry := register (fst (fst x)) (snd x) (snd (fst x)) r.
Lemma call_keeps r x f e :
  creator_of (call r x) f e = match creator_of r f e with Some k => Some k | None => creator_of [x] f e end.
Proof.
  destruct x as [[g e'] k]. unfold call, register. cbn [fst snd]. destruct (creator_of r g e') as [k'|] eqn:E.
  - destruct (creator_of r f e) as [k''|] eqn:E2; [reflexivity|]. unfold creator_of at 1. cbn [find].
    destruct (same_key f e (g, e', k)) eqn:Q; [|reflexivity]. exfalso. unfold same_key in Q. cbn [fst snd] in Q.
    apply andb_prop in Q as [Q1 Q2]. apply factory_eqb_eq in Q1. apply beq_eq in Q2. subst. congruence.
  - now rewrite creator_of_app.
Qed.
Lemma calls_keep xs : forall r f e,
  creator_of (fold_left call xs r) f e = match creator_of r f e with Some k => Some k | None => creator_of xs f e end.
Proof.
  induction xs as [|x xs IH]; intros r f e; cbn [fold_left].
  - now destruct (creator_of r f e).
  - rewrite IH, call_keeps. destruct (creator_of r f e); [reflexivity|]. change (x :: xs) with ([x] ++ xs).
    now rewrite creator_of_app.
Qed.
Lemma creator_of_in r f e k : creator_of r f e = Some k -> In (f, e, k) r.
Proof.
  unfold creator_of. destruct (find (same_key f e) r) as [[[g e'] k']|] eqn:E; [|discriminate]. intros H. injection H as <-.
  apply find_some in E as [E1 E2]. unfold same_key in E2. cbn [fst snd] in E2. apply andb_prop in E2 as [Q1 Q2].
  apply factory_eqb_eq in Q1. apply beq_eq in Q2. now subst.
Qed.
Lemma in_creator_of r f e k : NoDup (map fst r) -> In (f, e, k) r -> creator_of r f e = Some k.
Proof.
  induction r as [|[[g e'] k'] r IH]; intros N H; [contradiction|]. cbn [map fst] in N. apply NoDup_cons_iff in N as [N1 N2].
  unfold creator_of. cbn [find]. destruct (same_key f e (g, e', k')) eqn:Q.
  - destruct H as [H|H]; [injection H as -> -> ->; reflexivity|]. exfalso. unfold same_key in Q. cbn [fst snd] in Q.
    apply andb_prop in Q as [Q1 Q2]. apply factory_eqb_eq in Q1. apply beq_eq in Q2. subst. apply N1.
    change (f, e) with (fst (f, e, k)). now apply in_map.
  - apply IH; [assumption|]. destruct H as [H|H]; [|exact H]. exfalso. injection H as -> -> ->.
    unfold same_key in Q. cbn [fst snd] in Q. rewrite beq_refl in Q. now rewrite (proj2 (factory_eqb_eq f f) eq_refl) in Q.
Qed.
(** All the calls of the library, in order. *)
Definition class_calls (x : factory * creator) : list (factory * bytes * creator) :=
  map (fun e => (fst x, e, snd x)) (extensions (snd x)).
Definition class_list : list (factory * creator) :=
  [(TriangulatedSurfaceIn, TSInput); (TriangulatedSurfaceOut, TSOutput); (PolygonalSurfaceIn, DEMInput);
   (PolygonalSurfaceIn, PolyTIFFInput); (TetrahedralSolidOut, SolidFemOutput); (EdgedCurveIn, WLInput);
   (EdgedCurveIn, WellDatInput); (EdgedCurveIn, WellTxtInput); (EdgedCurveIn, WellDevInput); (EdgedCurveIn, PLInput);
   (EdgedCurveOut, PLOutput); (LightRegularGrid2In, GEOTIFFInput); (RegularGridIn, VOInput); (HybridSolidIn, GRDECLInput);
   (PointSetIn, VSInput); (PointSetOut, VSOutput); (StructuralModelIn, MLInput); (StructuralModelIn, LSOInput);
   (StructuralModelOut, MLOutputStructuralModel); (StructuralModelOut, LSOOutput); (SectionIn, SHPInput);
   (BRepOut, MLOutputBRep); (BRepOut, BRepFemOutput); (HorizonsStack2In, HorizonStackSKUAInput2);
   (HorizonsStack3In, HorizonStackSKUAInput3)].
Definition all_calls : list (factory * bytes * creator) := flat_map class_calls class_list.
Lemma class_calls_fold x r : register_all (fst x) (snd x) r = fold_left call (class_calls x) r.
Proof.
  destruct x as [f k]. unfold register_all, class_calls. cbn [fst snd]. revert r. generalize (extensions k) as es.
  induction es as [|e es IH]; intros r; [reflexivity|]. cbn [map fold_left]. now rewrite IH.
Qed.
Lemma classes_fold l : forall r, fold_left (fun r x => register_all (fst x) (snd x) r) l r = fold_left call (flat_map class_calls l) r.
Proof.
  induction l as [|x l IH]; intros r; [reflexivity|]. cbn [fold_left flat_map]. now rewrite fold_left_app, IH, class_calls_fold.
Qed.
Lemma formats_calls r : model_formats (mesh_formats r) = fold_left call all_calls r.
Proof. unfold all_calls. rewrite <- classes_fold. unfold model_formats, mesh_formats, class_list. cbn [fold_left fst snd]. reflexivity. Qed.
Lemma calls_from_nothing : model_formats (mesh_formats []) = all_calls.
Proof. vm_compute. reflexivity. Qed.
Lemma all_calls_formats f e k : In (f, e, k) all_calls <-> (a_format f e k /\ k <> StratigraphicLSOInput).
Proof.
  split.
  - intros H. vm_compute in H.
    repeat (destruct H as [H|H]; [injection H as <- <- <-; split; [|discriminate]; constructor; cbn; auto|]). contradiction.
  - intros [H N]. vm_compute. destruct H; cbn in *; try tauto;
    repeat match goal with H : _ \/ _ |- _ => destruct H as [H|H] end; subst; try tauto; contradiction.
Qed.
Fixpoint keys_distinct (l : list (factory * bytes)) : bool :=
  match l with
  | [] => true
  | (f, e) :: r => negb (existsb (fun y => factory_eqb (fst y) f && beq (snd y) e) r) && keys_distinct r
  end.
Lemma keys_distinct_ok l : keys_distinct l = true -> NoDup l.
Proof.
  induction l as [|[f e] l IH]; intros H; [constructor|]. cbn [keys_distinct] in H. apply andb_prop in H as [H1 H2].
  constructor; [|now apply IH]. intros I. apply negb_true_iff in H1. assert (X : existsb (fun y => factory_eqb (fst y) f && beq (snd y) e) l = true).
  { apply existsb_exists. exists (f, e). split; [exact I|]. cbn [fst snd]. rewrite beq_refl. now rewrite (proj2 (factory_eqb_eq f f) eq_refl). }
  congruence.
Qed.
Lemma all_calls_distinct : NoDup (map fst all_calls).
Proof. apply keys_distinct_ok. vm_compute. reflexivity. Qed.

(** ** Theorems *)
(** C110: whatever the other libraries register first ([mesh_deps], [model_deps], [r0]), a reader or writer of this library is
    the one used for its kind of object and its extension, unless another library has taken the extension; the stratigraphic
    .lso reader excepted. *)
Theorem C110_reachable : forall mesh_deps model_deps r0 f e k,
  a_format f e k -> k <> StratigraphicLSOInput -> creator_of (mesh_deps (model_deps r0)) f e = None ->
  creator_of (model_library mesh_deps model_deps r0) f e = Some k.
Proof.
  intros md mo r0 f e k H N E. unfold model_library, mesh_library. rewrite formats_calls, calls_keep, E.
  apply in_creator_of; [apply all_calls_distinct|]. now apply all_calls_formats.
Qed.
Print Assumptions C110_reachable.
(** The formats of the other libraries are kept, and no other format appears. *)
Theorem C110_others_kept : forall mesh_deps model_deps r0 f e,
  (forall k, creator_of (mesh_deps (model_deps r0)) f e = Some k -> creator_of (model_library mesh_deps model_deps r0) f e = Some k) /\
  (forall k, creator_of (model_library mesh_deps model_deps r0) f e = Some k ->
     creator_of (mesh_deps (model_deps r0)) f e = Some k \/ a_format f e k).
Proof.
  intros md mo r0 f e. unfold model_library, mesh_library. rewrite formats_calls. split; intros k H.
  - now rewrite calls_keep, H.
  - rewrite calls_keep in H. destruct (creator_of (md (mo r0)) f e) as [k'|]; [left; congruence|right].
    apply creator_of_in in H. now apply all_calls_formats in H.
Qed.
Print Assumptions C110_others_kept.
(** The order of the registrations does not matter: made in any other order, they give the same readers and writers. *)
Theorem C110_any_order : forall r calls, Permutation calls (model_formats (mesh_formats [])) ->
  forall f e, creator_of (fold_left (fun r x => register (fst (fst x)) (snd x) (snd (fst x)) r) calls r) f e =
              creator_of (model_formats (mesh_formats r)) f e.
Proof.
  intros r calls P f e. change (fold_left _ calls r) with (fold_left call calls r). rewrite formats_calls, !calls_keep.
  destruct (creator_of r f e); [reflexivity|]. rewrite calls_from_nothing in P.
  assert (D : NoDup (map fst calls)).
  { eapply Permutation_NoDup; [|apply all_calls_distinct]. apply Permutation_sym. now apply Permutation_map. }
  destruct (creator_of all_calls f e) as [k|] eqn:E.
  - apply in_creator_of; [exact D|]. apply creator_of_in in E. eapply Permutation_in; [|exact E]. now apply Permutation_sym.
  - destruct (creator_of calls f e) as [k|] eqn:E2; [|reflexivity]. exfalso. apply creator_of_in in E2.
    apply (Permutation_in _ P) in E2. apply (in_creator_of _ _ _ _ all_calls_distinct) in E2. congruence.
Qed.
Print Assumptions C110_any_order.
(** Initialising again changes nothing. *)
Theorem C110_twice : forall r, model_formats (mesh_formats (model_formats (mesh_formats r))) = model_formats (mesh_formats r).
Proof.
  intros r. rewrite formats_calls. generalize (formats_calls r). generalize (model_formats (mesh_formats r)). intros r1 E1.
  assert (H : forall x, In x all_calls -> creator_of r1 (fst (fst x)) (snd (fst x)) <> None).
  { intros [[f e] k] Hx. cbn [fst snd]. rewrite E1, calls_keep. destruct (creator_of r f e); [discriminate|].
    rewrite (in_creator_of _ f e k all_calls_distinct Hx). discriminate. }
  revert H. generalize all_calls. intros l. induction l as [|x l IH]; intros H; [reflexivity|]. cbn [fold_left].
  assert (E : call r1 x = r1).
  { unfold call, register. specialize (H x (or_introl eq_refl)). destruct (creator_of r1 (fst (fst x)) (snd (fst x))); [reflexivity|congruence]. }
  rewrite E. apply IH. intros y Hy. apply H. now right.
Qed.
Print Assumptions C110_twice.
(** A surface, curve, point set or structural model saved by the library under some extension can be loaded under the same
    extension; a BRep saved as .ml can be loaded as a structural model. *)
Definition loads_what_saves (o i : factory) : Prop :=
  (o = TriangulatedSurfaceOut /\ i = TriangulatedSurfaceIn) \/ (o = EdgedCurveOut /\ i = EdgedCurveIn) \/
  (o = PointSetOut /\ i = PointSetIn) \/ (o = StructuralModelOut /\ i = StructuralModelIn).
Theorem C110_saved_can_be_loaded : forall mesh_deps model_deps r0 o i e k,
  (loads_what_saves o i /\ a_format o e k \/ (o = BRepOut /\ e = lit "ml" /\ i = StructuralModelIn)) ->
  exists reader, creator_of (model_library mesh_deps model_deps r0) i e = Some reader.
Proof.
  intros md mo r0 o i e k H.
  assert (R : exists k', a_format i e k' /\ k' <> StratigraphicLSOInput).
  { destruct H as [[H HF]|[-> [-> ->]]]; [|exists MLInput; split; [constructor|discriminate]].
    destruct H as [[-> ->]|[[-> ->]|[[-> ->]|[-> ->]]]]; inversion HF; subst; eexists; (split; [constructor|discriminate]). }
  destruct R as [k' [R N]]. unfold model_library, mesh_library. rewrite formats_calls, calls_keep.
  destruct (creator_of (md (mo r0)) i e) as [x|]; [now exists x|]. exists k'. apply in_creator_of; [apply all_calls_distinct|].
  now apply all_calls_formats.
Qed.
Print Assumptions C110_saved_can_be_loaded.
(** Refuted for one reader: StratigraphicLSOInput is part of the library and is registered nowhere; unless another library takes
    the extension, there is no reader for the stratigraphic .lso files. *)
Theorem C110_stratigraphic_lso_refuted : exists f e k, a_format f e k /\
  forall mesh_deps model_deps r0, creator_of (mesh_deps (model_deps r0)) f e = None ->
    creator_of (model_library mesh_deps model_deps r0) f e = None.
Proof.
  exists StratigraphicModelIn, (lit "lso"), StratigraphicLSOInput. split; [constructor|]. intros md mo r0 E.
  unfold model_library, mesh_library. rewrite formats_calls, calls_keep, E. reflexivity.
Qed.
Print Assumptions C110_stratigraphic_lso_refuted.

(** With a library that registers a .ts reader of its own first: it keeps it, the writer is the one of this library. *)
Example C110_ex :
  let other r := register TriangulatedSurfaceIn (Other 0) "ts" r in
  let r := model_library other (fun r => r) [] in
  creator_of r TriangulatedSurfaceIn "ts" = Some (Other 0) /\ creator_of r TriangulatedSurfaceOut "ts" = Some TSOutput /\
  creator_of r SectionIn "shz" = Some SHPInput /\ creator_of r StratigraphicModelIn "lso" = None.
Proof. vm_compute. repeat split; reflexivity. Qed.
