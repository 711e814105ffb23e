(** * The FEM file and the iteration order of the hash tables (C120). *)
From Coq Require Import ZArith List Lia Bool Ascii String QArith Permutation.
From Verif Require Import Base Text TextFacts NumText FemModel FemSpec FemFacts FemFeatures FemText ExCheck ExFem PropsFem PropsFemTotal.
Import ListNotations.
Local Open Scope string_scope.
Local Open Scope list_scope.
Local Open Scope Z_scope.

(** ** Two runs of the program

    [absl::flat_hash_map] iterates in an order that depends on a seed of the process and on the
    addresses of the tables: two runs use the same numbers, comparisons and texts, with other orders
    [vi] and [si]. *)
Definition other_run (V : FemVal) (vi : forall T, list (val V * T) -> list (val V * T))
    (si : forall T, list (bytes * T) -> list (bytes * T)) : FemVal :=
  mkFemVal (val V) (veqb V) (vneg V) (vpos V) (vfix V) (vos V) (vsort V) vi si.
(** An order visits every entry once. *)
Definition visits {K} (it : forall T, list (K * T) -> list (K * T)) : Prop :=
  forall T (m : list (K * T)), Permutation (it T m) m.
(** Sorting values that are pairwise different gives a result that does not depend on their order. *)
Definition sorts (V : FemVal) : Prop := forall l l', Permutation l l' ->
  ForallOrdPairs (fun a b => veqb V a b = false) l -> vsort V l = vsort V l'.

Section Runs.
Context (V : FemVal) (vi : forall T, list (val V * T) -> list (val V * T)) (si : forall T, list (bytes * T) -> list (bytes * T)).
Notation W := (other_run V vi si).
(** The same solid, in the other run. *)
Definition again_attr (a : fattr V) : fattr W := mkFattr W (f_name V a) (f_generic V a) (f_vals V a).
Definition again_fi (f : features_in V) : features_in W := mkFeatIn W (fi_cells V f) (fi_main V f) (fi_cond V f).
Definition again (s : solid V) : solid W :=
  mkSolid W (s_points V s) (s_tetras V s) (map again_attr (s_vattrs V s)) (map again_attr (s_pattrs V s))
    (s_block_vertex V s) (s_block_poly V s) (option_map again_fi (s_facets V s)) (option_map again_fi (s_edges V s)).
(** No aperture attribute on the facets, no conduit area attribute on the edges. *)
Definition featureless (s : solid V) : Prop :=
  (forall f, s_facets V s = Some f -> fi_main V f = None) /\ (forall f, s_edges V s = Some f -> fi_main V f = None).

Hypothesis (HV : femval_ok V) (HS : sorts V) (Hvi : visits vi) (Hsi : visits si).

Lemma add_distinct k e (m : table (K := val V)) : distinct (veqb V) (map fst m) -> distinct (veqb V) (map fst (table_add (veqb V) k e m)).
Proof.
  intros D. unfold table_add. destruct (contains_key (veqb V) k m) eqn:C.
  - replace (map fst (push_on (veqb V) k e m)) with (map fst m); [assumption|]. clear. induction m as [|[k' es] r IH]; [reflexivity|].
    cbn [push_on]. destruct (veqb V k k'); cbn [map fst]; [reflexivity|]. now rewrite <- IH.
  - rewrite map_app. apply distinct_snoc; [assumption|]. apply Forall_forall. intros a Ha. rewrite (veqb_sym V HV).
    apply in_map_iff in Ha as [[k' es] [<- Hin]]. unfold contains_key in C. destruct (veqb V k (fst (k', es))) eqn:E; [|exact E].
    assert (T : existsb (fun e => veqb V k (fst e)) m = true) by (apply existsb_exists; eauto). rewrite T in C. discriminate.
Qed.
Lemma dist_distinct n a m : create_attribute_distribution V n a = Ok m -> distinct (veqb V) (map fst m).
Proof.
  unfold create_attribute_distribution. assert (G : forall l m0, distinct (veqb V) (map fst m0) ->
    foldM (fun m elem => do v <- idxz (f_vals V a) elem; Ok (table_add (veqb V) v (add32 elem 1) m)) l m0 = Ok m -> distinct (veqb V) (map fst m)).
  { induction l as [|x l IH]; intros m0 D E; cbn [foldM] in E; [now injection E as <-|].
    destruct (idxz (f_vals V a) x) as [v| | |]; cbn [bind] in E; try discriminate. apply (IH _ (add_distinct v _ _ D) E). }
  apply G. constructor.
Qed.
Lemma coord_distinct d ps : forall i m, distinct (veqb V) (map fst m) -> distinct (veqb V) (map fst (coord_dist V d i ps m)).
Proof. induction ps as [|p r IH]; intros i m D; cbn [coord_dist]; [assumption|]. apply IH. now apply add_distinct. Qed.
Lemma sorted_keys (m : table (K := val V)) : distinct (veqb V) (map fst m) ->
  vsort V (map fst (vi _ m)) = vsort V (map fst (viter V _ m)).
Proof.
  intros D. transitivity (vsort V (map fst m)).
  - symmetry. apply HS; [apply Permutation_map; symmetry; apply Hvi|exact D].
  - apply HS; [apply Permutation_map; symmetry; apply (viter_perm V HV)|exact D].
Qed.
Lemma same_coord name d s : write_coord_dist W name d (again s) = write_coord_dist V name d s.
Proof.
  unfold write_coord_dist. assert (E : forall ps i (m : table (K := val V)), coord_dist W d i ps m = coord_dist V d i ps m).
  { induction ps as [|p r IH]; intros i m; [reflexivity|]. cbn [coord_dist]. apply IH. }
  cbn [again s_points]. change (@nil (val W * list Z)) with (@nil (val V * list Z)).
  cbn [other_run vsort viter val]. unfold table in *. rewrite E. rewrite sorted_keys by (apply coord_distinct; constructor). reflexivity.
Qed.
Lemma same_property n a : write_property W n (again_attr a) = write_property V n a.
Proof.
  unfold write_property. change (create_attribute_distribution W n (again_attr a)) with (create_attribute_distribution V n a).
  destruct (create_attribute_distribution V n a) as [m| | |] eqn:E; cbn [bind]; try reflexivity.
  unfold property_lines. cbn [other_run vsort viter val]. rewrite sorted_keys by exact (dist_distinct _ _ _ E). reflexivity.
Qed.
Lemma same_blocks n (p : fattr W -> bool) (q : fattr V -> bool) l : (forall a, p (again_attr a) = q a) ->
  mapM (write_property W n) (filter p (map again_attr l)) = mapM (write_property V n) (filter q l)
  /\ List.length (filter p (map again_attr l)) = List.length (filter q l).
Proof.
  intros H. induction l as [|a l [IH1 IH2]]; [split; reflexivity|]. cbn [map filter]. rewrite H. destruct (q a); [|now split].
  cbn [mapM List.length]. rewrite same_property, IH1, IH2. split; reflexivity.
Qed.
Lemma same_nodal s : write_ref_nodal_dist W (again s) = write_ref_nodal_dist V s.
Proof.
  unfold write_ref_nodal_dist, write_xyz_dist. rewrite !same_coord.
  destruct (same_blocks (nb_polyhedra V s) (vertex_exported W) (vertex_exported V) (s_vattrs V s) (fun _ => eq_refl)) as [E1 E2].
  cbn [again s_vattrs]. change (nb_polyhedra W (again s)) with (nb_polyhedra V s). change (nb_vertices W (again s)) with (nb_vertices V s).
  rewrite E1, E2. reflexivity.
Qed.
Lemma same_elem s : write_ref_element_dist W (again s) = write_ref_element_dist V s.
Proof.
  unfold write_ref_element_dist, nb_elem_att.
  destruct (same_blocks (nb_polyhedra V s) (poly_exported W) (poly_exported V) (s_pattrs V s) (fun _ => eq_refl)) as [E1 _].
  cbn [again s_pattrs]. change (nb_polyhedra W (again s)) with (nb_polyhedra V s). rewrite E1, map_length. reflexivity.
Qed.
Lemma none_dfe (U : FemVal) (s : solid U) : (forall f, s_facets U s = Some f -> fi_main U f = None) ->
  (forall f, s_edges U s = Some f -> fi_main U f = None) -> write_discrete_features U s = Ok [].
Proof.
  intros F2 F1. unfold write_discrete_features, build_discrete_features, build_opt.
  destruct (s_facets U s) as [f|]; [rewrite (F2 f eq_refl)|]; cbn [bind]; (destruct (s_edges U s) as [e|]; [rewrite (F1 e eq_refl)|]; reflexivity).
Qed.
Lemma same_dfe s : featureless s -> write_discrete_features W (again s) = Ok [] /\ write_discrete_features V s = Ok [].
Proof.
  intros [F2 F1]. split; apply none_dfe; try assumption.
  - cbn [again s_facets]. intros f E. destruct (s_facets V s) as [g|]; [|discriminate]. injection E as <-. cbn [again_fi fi_main]. now apply F2.
  - cbn [again s_edges]. intros f E. destruct (s_edges V s) as [g|]; [|discriminate]. injection E as <-. cbn [again_fi fi_main]. now apply F1.
Qed.
(** The nodal sets: the same lines, in another order. *)
Definition perm_lines (r r' : res (list bytes)) : Prop :=
  match r, r' with
  | Ok l, Ok l' => Permutation l l'
  | Throw e, Throw e' => e = e'
  | UB, UB | Hang, Hang => True
  | _, _ => False
  end.
Lemma same_nsets s : perm_lines (write_nodal_sets W (again s)) (write_nodal_sets V s).
Proof.
  unfold write_nodal_sets. cbn [again s_block_vertex]. change (nb_vertices W (again s)) with (nb_vertices V s).
  destruct (s_block_vertex V s) as [names|]; [|cbn; reflexivity].
  destruct (vertex_region_map (nb_vertices V s) names) as [m| | |]; cbn [bind perm_lines]; try reflexivity; try exact I.
  constructor. apply Permutation_flat_map. cbn [other_run siter]. rewrite (Hsi _ m), (siter_perm V HV _ m). reflexivity.
Qed.
Lemma same_esets s : write_element_sets W (again s) = write_element_sets V s.
Proof. reflexivity. Qed.

Lemma runs_same_file s : featureless s -> s_block_vertex V s = None -> write_fem W (again s) = write_fem V s.
Proof.
  intros F B. unfold write_fem. rewrite same_nodal, same_elem, same_esets. destruct (same_dfe s F) as [-> ->].
  unfold write_nodal_sets. change (s_block_vertex W (again s)) with (s_block_vertex V s). rewrite B. reflexivity.
Qed.
Lemma runs_same_lines s : featureless s ->
  (exists ls ls', write_fem V s = Ok (unlines ls) /\ write_fem W (again s) = Ok (unlines ls') /\ Permutation ls ls')
  \/ (write_fem W (again s) = write_fem V s /\ forall t, write_fem V s <> Ok t).
Proof.
  intros F. unfold write_fem. rewrite same_nodal, same_elem, same_esets. destruct (same_dfe s F) as [-> ->].
  destruct (write_ref_nodal_dist V s) as [nd| | |]; cbn [bind]; try (right; split; [reflexivity|discriminate]).
  destruct (write_ref_element_dist V s) as [el| | |]; cbn [bind]; try (right; split; [reflexivity|discriminate]).
  pose proof (same_nsets s) as P. unfold perm_lines in P.
  destruct (write_nodal_sets V s) as [ns|e| |], (write_nodal_sets W (again s)) as [ns'|e'| |]; try contradiction; cbn [bind];
    try (right; split; [congruence|discriminate]).
  destruct (write_element_sets V s) as [es| | |]; cbn [bind]; try (right; split; [reflexivity|discriminate]).
  left. cbn [app]. rewrite <- !(unlines_app). eexists. eexists. split; [reflexivity|]. split; [reflexivity|].
  apply Permutation_app_tail. repeat (first [apply perm_skip]). 
  repeat (apply Permutation_app_head). apply Permutation_app_tail. symmetry. exact P.
Qed.
End Runs.

(** ** C120 *)
Theorem C120_same_file : forall (V : FemVal) vi si (s : solid V),
  femval_ok V -> sorts V -> visits vi -> visits si ->
  featureless V s -> s_block_vertex V s = None ->
  write_fem (other_run V vi si) (again V vi si s) = write_fem V s.
Proof. intros V vi si s HV HS Hvi Hsi F B. exact (runs_same_file V vi si HV HS Hvi s F B). Qed.
Print Assumptions C120_same_file.
(** With nodal sets: the same lines, in another order (or both runs fail alike). *)
Theorem C120_same_lines : forall (V : FemVal) vi si (s : solid V),
  femval_ok V -> sorts V -> visits vi -> visits si -> featureless V s ->
  (exists ls ls', write_fem V s = Ok (unlines ls) /\ write_fem (other_run V vi si) (again V vi si s) = Ok (unlines ls') /\ Permutation ls ls')
  \/ (write_fem (other_run V vi si) (again V vi si s) = write_fem V s /\ forall t, write_fem V s <> Ok t).
Proof. intros V vi si s HV HS Hvi Hsi F. exact (runs_same_lines V vi si HV HS Hvi Hsi s F). Qed.
Print Assumptions C120_same_lines.

(** The numbers of the examples are sorted. *)
Lemma Qle_total a b : Qle_bool a b = false -> Qle_bool b a = true.
Proof.
  intros H. apply Qle_bool_iff. destruct (Qlt_le_dec b a) as [L|L]; [now apply Qlt_le_weak|].
  apply Qle_bool_iff in L. rewrite L in H. discriminate.
Qed.
Lemma insert_swap x y l : Qeq_bool x y = false -> insert x (insert y l) = insert y (insert x l).
Proof.
  intros N. assert (N' : Qle_bool x y = true -> Qle_bool y x = true -> False).
  { intros A B. apply Qle_bool_iff in A, B. assert (E : (x == y)%Q) by now apply Qle_antisym. apply Qeq_bool_iff in E. rewrite E in N. discriminate. }
  induction l as [|h r IH]; cbn [insert].
  - destruct (Qle_bool x y) eqn:A, (Qle_bool y x) eqn:B; cbn [insert]; try reflexivity; [exfalso; auto|].
    apply Qle_total in A. rewrite A in B. discriminate.
  - assert (T : forall a b c, Qle_bool a b = true -> Qle_bool b c = true -> Qle_bool a c = true).
    { intros a b c A B. apply Qle_bool_iff in A, B. apply Qle_bool_iff. eapply Qle_trans; eassumption. }
    destruct (Qle_bool y h) eqn:Yh, (Qle_bool x h) eqn:Xh; cbn [insert]; rewrite ?Yh, ?Xh.
    + destruct (Qle_bool x y) eqn:A, (Qle_bool y x) eqn:B; try reflexivity; [exfalso; auto|].
      apply Qle_total in A. rewrite A in B. discriminate.
    + destruct (Qle_bool x y) eqn:A; [|reflexivity]. rewrite (T x y h A Yh) in Xh. discriminate.
    + destruct (Qle_bool y x) eqn:B; [|reflexivity]. rewrite (T y x h B Xh) in Yh. discriminate.
    + now rewrite IH.
Qed.
Lemma ExFem_sorts : sorts ExFem.
Proof.
  intros l l' P. induction P as [|x l l' P IH|x y l|l l' l'' P1 IH1 P2 IH2]; intros D; cbn [ExFem vsort isort].
  - reflexivity.
  - inversion D; subst. change (isort l) with (vsort ExFem l). change (isort l') with (vsort ExFem l'). now rewrite IH.
  - inversion D as [|? ? D1 D2]; subst. apply insert_swap. apply (Forall_inv D1).
  - rewrite (IH1 D : isort l = isort l'). apply IH2. eapply (distinct_perm (veqb ExFem) (veqb_sym _ ExFem_ok)); [exact P1|exact D].
Qed.

(** Reading the tables backwards. *)
Definition backwards {K} : forall T, list (K * T) -> list (K * T) := fun T m => rev m.
Lemma backwards_visits K : visits (@backwards K).
Proof. intros T m. symmetry. apply Permutation_rev. Qed.
(** The whole claim is false: two blocks of vertices, or two apertures, and the file changes. *)
Definition ex_two_blocks : solid ExFem :=
  mkSolid ExFem [(0 # 1, 0 # 1, 0 # 1); (1 # 1, 0 # 1, 0 # 1)]%Q [] [] []
    (Some [[lit "b1"]; [lit "b2"; lit "b1"]]) None None None.
Definition ex_two_apertures : solid ExFem :=
  mkSolid ExFem [(0 # 1, 0 # 1, 0 # 1); (1 # 1, 0 # 1, 0 # 1); (0 # 1, 1 # 1, 0 # 1); (1 # 1, 1 # 1, 0 # 1)]%Q [] [] []
    None None (Some (mkFeatIn ExFem [[0; 1; 2]; [1; 2; 3]] (Some [1 # 2; 1 # 4]%Q) None)) None.
Definition differ (r r' : res bytes) : bool := match r, r' with Ok t, Ok t' => negb (beq t t') | _, _ => false end.
Lemma differ_ok r r' : differ r r' = true -> exists t t', r = Ok t /\ r' = Ok t' /\ t <> t'.
Proof.
  unfold differ. destruct r as [t| | |]; try discriminate. destruct r' as [t'| | |]; try discriminate. intros E.
  exists t, t'. split; [reflexivity|]. split; [reflexivity|]. intros ->. rewrite beq_refl in E. discriminate.
Qed.
Theorem C120_same_file_refuted :
  exists (V : FemVal) vi si, femval_ok V /\ sorts V /\ visits vi /\ visits si /\
    (exists s t t', featureless V s /\ write_fem V s = Ok t /\ write_fem (other_run V vi si) (again V vi si s) = Ok t' /\ t <> t') /\
    (exists s t t' n, s_block_vertex V s = None /\ write_fem V s = Ok t /\ write_fem (other_run V vi si) (again V vi si s) = Ok t' /\
       t <> t' /\ count_occ (list_eq_dec ascii_dec) (text_lines t) n <> count_occ (list_eq_dec ascii_dec) (text_lines t') n).
Proof.
  exists ExFem, backwards, backwards. split; [exact ExFem_ok|]. split; [exact ExFem_sorts|]. split; [apply backwards_visits|]. split; [apply backwards_visits|].
  split.
  - exists ex_two_blocks. assert (D : differ (write_fem ExFem ex_two_blocks) (write_fem (other_run ExFem backwards backwards) (again ExFem backwards backwards ex_two_blocks)) = true)
      by (vm_compute; reflexivity).
    apply differ_ok in D as [t [t' [E [E' N]]]]. exists t, t'. split; [split; intros f; discriminate|]. auto.
  - exists ex_two_apertures.
    assert (D : differ (write_fem ExFem ex_two_apertures) (write_fem (other_run ExFem backwards backwards) (again ExFem backwards backwards ex_two_apertures)) = true)
      by (vm_compute; reflexivity).
    apply differ_ok in D as [t [t' [E [E' N]]]]. exists t, t', (lit "              0.250000 2 ]]>"). split; [reflexivity|]. split; [assumption|]. split; [assumption|]. split; [assumption|].
    assert (C : match write_fem ExFem ex_two_apertures, write_fem (other_run ExFem backwards backwards) (again ExFem backwards backwards ex_two_apertures) with
                | Ok t, Ok t' => negb (Nat.eqb (count_occ (list_eq_dec ascii_dec) (text_lines t) (lit "              0.250000 2 ]]>"))
                                               (count_occ (list_eq_dec ascii_dec) (text_lines t') (lit "              0.250000 2 ]]>")))
                | _, _ => false end = true) by (vm_compute; reflexivity).
    rewrite E, E' in C. apply negb_true_iff, Nat.eqb_neq in C. exact C.
Qed.
Print Assumptions C120_same_file_refuted.

(** Example: a solid with a cell attribute of three values, written alike when the tables are read backwards. *)
Definition ex_values : solid ExFem :=
  mkSolid ExFem [(0 # 1, 0 # 1, 0 # 1); (1 # 1, 0 # 1, 0 # 1); (0 # 1, 1 # 1, 0 # 1); (1 # 1, 1 # 1, 3 # 2)]%Q
    [[0; 1; 2; 3]; [1; 2; 3; 0]; [2; 3; 0; 1]] [] [mkFattr ExFem "porosity" true [3 # 10; 1 # 10; 2 # 10]%Q] None None None None.
Definition has_line (l : bytes) (r : res bytes) : bool := match r with Ok t => existsb (beq l) (text_lines t) | _ => false end.
Example C120_example : featureless ExFem ex_values /\ s_block_vertex ExFem ex_values = None /\
  map fst (backwards (list Z) [((3 # 10)%Q, [1]); ((1 # 10)%Q, [2]); ((2 # 10)%Q, [3])]) = [2 # 10; 1 # 10; 3 # 10]%Q /\
  has_line "  0.100000  2 " (write_fem (other_run ExFem backwards backwards) (again ExFem backwards backwards ex_values)) = true /\
  featureless ExFem ex_two_blocks /\
  has_line "  b1  1-2 " (write_fem (other_run ExFem backwards backwards) (again ExFem backwards backwards ex_two_blocks)) = true.
Proof. split; [split; intros f; discriminate|]. split; [reflexivity|]. split; [reflexivity|]. split; [vm_compute; reflexivity|]. split; [split; intros f; discriminate|vm_compute; reflexivity]. Qed.
