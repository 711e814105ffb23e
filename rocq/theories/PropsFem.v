(** * FEM files (C29-C35, C56-C59). *)
From Coq Require Import ZArith List Lia Bool Ascii String QArith Permutation.
From Verif Require Import Base Text TextFacts NumText FemModel FemSpec FemFacts FemFeatures FemText ExCheck ExFem.
Import ListNotations.
Local Open Scope string_scope.
Local Open Scope list_scope.
Local Open Scope Z_scope.

(** C29.  The chunks written for a list of element numbers expand to exactly that list. *)
Theorem C29_id_ranges_decode :
  forall (elements : list Z) (limit : Z),
    Forall (fun e => 1 <= e < 2 ^ 32) elements ->
    decode_chunks (format_range_chunks elements limit) = elements.
Proof. intros elements limit H. exact (chunks_elements elements limit H). Qed.
Print Assumptions C29_id_ranges_decode.
Example C29_instance :
  format_range_chunks [3; 4; 5; 9; 7; 7; 8; 20] 8 = [lit "3-5 9 7"; lit "7-8 20"].
Proof. vm_compute. reflexivity. Qed.
(** With number 0 right after the largest 32-bit number the two are merged in one range; no
    element has the number 0 (numbers start at 1). *)
Example C29_wrap : format_range_chunks [4294967295; 0] 1500 = [lit "4294967295-0"].
Proof. vm_compute. reflexivity. Qed.

(** C30.  Chunks are non-empty and within the limit, as soon as the limit can hold the longest
    range (22 characters with its separator). *)
Theorem C30_chunk_size :
  forall (elements : list Z) (limit : Z),
    22 <= limit -> Forall (fun e => 0 <= e < 2 ^ 32) elements ->
    Forall (fun c => c <> [] /\ Z.of_nat (List.length c) <= limit) (format_range_chunks elements limit) /\
    (elements <> [] -> format_range_chunks elements limit <> []).
Proof.
  intros elements limit Hl H. split; [exact (chunks_good elements limit Hl H)|].
  intros N E. destruct elements as [|e r]; [contradiction|]. unfold format_range_chunks in E.
  pose proof (Forall_inv H) as He. cbn beta in He.
  destruct (range_loop_good limit r Hl e e ([], []) He He (Forall_inv_tail H)) as [_ G].
  { split; cbn; [lia|constructor]. }
  destruct (range_loop limit r e e ([], [])) as [[|x c] rs]; [now apply G|]. now destruct rs.
Qed.
Print Assumptions C30_chunk_size.
Example C30_instance :
  format_range_chunks [1; 2; 3; 1000000000; 1000000001; 5] 22 = [lit "1-3"; lit "1000000000-1000000001"; lit "5"].
Proof. vm_compute. reflexivity. Qed.
(** Below, an empty chunk can come out. *)
Example C30_small_limit : format_range_chunks [1; 2; 3] 3 = [[]; lit "1-3"].
Proof. vm_compute. reflexivity. Qed.

(** C31.  The section of a property with one value per element: every element number exactly
    once; the lines form groups; the values of the groups are pairwise different; each line
    carries the text of the value of its group and only elements that have this value. *)
Theorem C31_property_distribution :
  forall (V : FemVal) (n : nat) (a : fattr V),
    femval_ok V -> List.length (f_vals V a) = n -> Z.of_nat n < 2 ^ 32 ->
    exists groups : list (val V * list bytes),
      write_property V n a = Ok (f_name V a :: flat_map snd groups) /\
      Permutation (flat_map entry_ids (flat_map snd groups)) (all_ids n) /\
      ForallOrdPairs (fun v w => veqb V v w = false) (map fst groups) /\
      forall v ls, In (v, ls) groups -> ls <> [] /\ forall l, In l ls -> entry_text l = vfix V v /\
        forall e, In e (entry_ids l) ->
          exists w, nth_error (f_vals V a) (Z.to_nat (e - 1)) = Some w /\ veqb V w v = true.
Proof.
  intros V n a HV Hl Hn. destruct (property_lines_ok V n a HV ltac:(lia) Hn) as [gs G]. exists gs. exact G.
Qed.
Print Assumptions C31_property_distribution.
Definition ex_prop : fattr ExFem := mkFattr ExFem (lit "poro") true [3 # 10; 1 # 2; 3 # 10; 3 # 10; 6 # 20]%Q.
Example C31_instance :
  femval_ok ExFem /\ match write_property ExFem 5 ex_prop with
  | Ok ls => leqb beq ls [lit "poro"; lit "  0.300000  1 3-5 "; lit "  0.500000  2 "]
  | _ => false end = true.
Proof. split; [apply ExFem_ok|vm_compute; reflexivity]. Qed.
(** The printed values do not tell the groups apart: two elements with different values are
    written under the same text (here 2^-30 and 2^-31, as a permeability could be). *)
Theorem C31_printed_values_refuted :
  exists (V : FemVal) (a : fattr V) (lines : list bytes) (l1 l2 : bytes),
    femval_ok V /\ write_property V 2 a = Ok (f_name V a :: lines) /\ lines = [l1; l2] /\
    entry_ids l1 = [1] /\ entry_ids l2 = [2] /\ entry_text l1 = entry_text l2 /\
    forall x y, f_vals V a = [x; y] -> veqb V x y = false.
Proof.
  exists ExFem, (mkFattr ExFem (lit "permeability") true [1 # 2147483648; 1 # 1073741824]%Q).
  exists [lit "  0.000000  1 "; lit "  0.000000  2 "], (lit "  0.000000  1 "), (lit "  0.000000  2 ").
  split; [apply ExFem_ok|]. split; [vm_compute; reflexivity|]. split; [reflexivity|].
  split; [vm_compute; reflexivity|]. split; [vm_compute; reflexivity|]. split; [vm_compute; reflexivity|].
  intros x y H. cbn [f_vals] in H. injection H as <- <-. reflexivity.
Qed.
Print Assumptions C31_printed_values_refuted.

(** C32.  False: the section of a vertex attribute lists one node per tetrahedron. *)
Theorem C32_nodal_section_refuted :
  exists (V : FemVal) (s : solid V) (a : fattr V) (lines : list bytes),
    femval_ok V /\ s_vattrs V s = [a] /\ vertex_exported V a = true /\
    List.length (f_vals V a) = nb_vertices V s /\
    write_property V (nb_polyhedra V s) a = Ok (f_name V a :: lines) /\
    nb_vertices V s = 4%nat /\ flat_map entry_ids lines = [1].
Proof.
  pose (a := mkFattr ExFem (lit "temp") true [1; 2; 3; 4]%Q).
  pose (s := mkSolid ExFem [(0, 0, 0); (1, 0, 0); (0, 1, 0); (0, 0, 1)]%Q [[0; 1; 2; 3]] [a] [] None None None None).
  exists ExFem, s, a, [lit "  1.000000  1 "]. split; [apply ExFem_ok|].
  repeat split; vm_compute; reflexivity.
Qed.
Print Assumptions C32_nodal_section_refuted.
(** What is written for a vertex attribute, for every solid: the nodes 1..(number of tetrahedra)
    under their values; with more tetrahedra than vertices, a read out of bounds. *)
Theorem C32_nodal_section_partial :
  forall (V : FemVal) (s : solid V) (a : fattr V),
    femval_ok V -> In a (s_vattrs V s) -> List.length (f_vals V a) = nb_vertices V s ->
    Z.of_nat (nb_vertices V s) < 2 ^ 32 ->
    ((nb_polyhedra V s <= nb_vertices V s)%nat ->
      exists lines, write_property V (nb_polyhedra V s) a = Ok (f_name V a :: lines) /\
        Permutation (flat_map entry_ids lines) (all_ids (nb_polyhedra V s)) /\
        forall l e, In l lines -> In e (entry_ids l) ->
          exists v w, nth_error (f_vals V a) (Z.to_nat (e - 1)) = Some w /\ veqb V w v = true /\ entry_text l = vfix V v) /\
    ((nb_vertices V s < nb_polyhedra V s)%nat -> vertex_exported V a = true -> write_fem V s = UB).
Proof.
  intros V s a HV Hin Hl Hn. split.
  - intros Hp. destruct (property_lines_ok V (nb_polyhedra V s) a HV ltac:(lia)) as [gs [G1 [G2 [_ G3]]]].
    { change (2 ^ 32) with two32 in Hn. lia. }
    exists (flat_map snd gs). split; [assumption|]. split; [assumption|]. intros l e Hli He.
    apply in_flat_map in Hli as [[v ls] [Hg Hli]]. destruct (G3 v ls Hg) as [_ G4]. destruct (G4 l Hli) as [G5 G6].
    destruct (G6 e He) as [w [W1 W2]]. eauto.
  - intros Hp He. unfold write_fem, write_ref_nodal_dist.
    assert (E : mapM (write_property V (nb_polyhedra V s)) (filter (vertex_exported V) (s_vattrs V s)) = UB).
    { assert (Hf : In a (filter (vertex_exported V) (s_vattrs V s))) by (apply filter_In; auto).
      apply in_split in Hf as [l1 [l2 ->]].
      assert (U : write_property V (nb_polyhedra V s) a = UB).
      { unfold write_property. rewrite distribution_ub by lia. reflexivity. }
      induction l1 as [|b l1 IH]; cbn [app mapM]; [now rewrite U|].
      unfold write_property at 1. destruct (distribution_fold V b (rangez 0 (nb_polyhedra V s)) []) as [[m' Em]|Em];
        unfold create_attribute_distribution; rewrite Em; cbn [bind]; [|reflexivity]. now rewrite IH. }
    rewrite E. reflexivity.
Qed.
Print Assumptions C32_nodal_section_partial.
Example C32_instance :
  let a := mkFattr ExFem (lit "temp") true [5; 5; 7; 5]%Q in
  match write_property ExFem 4 a with
  | Ok ls => leqb beq ls [lit "temp"; lit "  5.000000  1-2 4 "; lit "  7.000000  3 "]
  | _ => false end = true.
Proof. vm_compute. reflexivity. Qed.

(** C33.  The announced number of element properties. *)
Theorem C33_element_count_refuted :
  exists (V : FemVal) (s : solid V), femval_ok V /\
    nb_elem_att V s <> Z.of_nat (List.length (filter (poly_exported V) (s_pattrs V s))).
Proof.
  exists ExFem, (mkSolid ExFem [] [] [] [mkFattr ExFem (lit "tetrahedron_vertices") false [];
    mkFattr ExFem (lit "tetrahedron_adjacents") false []; mkFattr ExFem (lit "geode_active") false [];
    mkFattr ExFem (lit "Block_ID_polyhedron") false []; mkFattr ExFem (lit "poro") true []] None None None None).
  split; [apply ExFem_ok|]. vm_compute. discriminate.
Qed.
Print Assumptions C33_element_count_refuted.
(** Exact characterisation: right if and only if exactly three attributes are not written. *)
Theorem C33_element_count_partial :
  forall (V : FemVal) (s : solid V) (lines : list bytes),
    write_ref_element_dist V s = Ok lines ->
    exists blocks, mapM (write_property V (nb_polyhedra V s)) (filter (poly_exported V) (s_pattrs V s)) = Ok blocks /\
      lines = [lit "REF_DISE_I"; SP :: show_int (nb_elem_att V s) ++ lit ", " ++ show (Z.of_nat (nb_polyhedra V s)) ++ lit ", 0"]
              ++ List.concat blocks /\
      (nb_elem_att V s = Z.of_nat (List.length blocks) <->
       List.length (filter (fun a => negb (poly_exported V a)) (s_pattrs V s)) = 3%nat).
Proof.
  intros V s lines H. unfold write_ref_element_dist in H. apply bind_ok in H as [blocks [H1 H]].
  injection H as <-. exists blocks. split; [assumption|]. split; [reflexivity|].
  assert (L : List.length blocks = List.length (filter (poly_exported V) (s_pattrs V s))).
  { apply mapM_ok in H1. induction H1; cbn; auto. }
  unfold nb_elem_att. rewrite L.
  assert (List.length (s_pattrs V s) = List.length (filter (poly_exported V) (s_pattrs V s))
          + List.length (filter (fun a => negb (poly_exported V a)) (s_pattrs V s)))%nat.
  { clear. induction (s_pattrs V s) as [|a r IH]; cbn [filter List.length]; [reflexivity|].
    destruct (poly_exported V a); cbn [negb List.length]; rewrite IH; lia. }
  split; lia.
Qed.
Print Assumptions C33_element_count_partial.
Example C33_instance :
  let s := mkSolid ExFem [] [[0; 1; 2; 3]] [] [mkFattr ExFem (lit "tetrahedron_vertices") false [];
    mkFattr ExFem (lit "tetrahedron_adjacents") false []; mkFattr ExFem (lit "geode_active") false [];
    mkFattr ExFem (lit "poro") true [1 # 4]%Q] None None None None in
  match write_ref_element_dist ExFem s with
  | Ok ls => leqb beq ls [lit "REF_DISE_I"; lit " 1, 1, 0"; lit "poro"; lit "  0.250000  1 "]
  | _ => false end = true.
Proof. vm_compute. reflexivity. Qed.

(** C34.  The entries of a material section, one per value and id chunk, are separated by ends of
    line if and only if every id list fits in one chunk. *)
Definition material_entries {V : FemVal} (m : list (val V * list Z)) : list bytes :=
  flat_map (fun e => map (fun c => repeat SP 14 ++ vos V (fst e) ++ SP :: c) (format_range_chunks (snd e) 1500)) m.
Fixpoint separated (ls : list bytes) : bytes :=
  match ls with
  | [] => []
  | [l] => l
  | l :: r => l ++ LF :: separated r
  end.
Definition filled {V : FemVal} (m : list (val V * list Z)) : Prop :=
  Forall (fun e => snd e <> [] /\ Forall (fun i => 1 <= i < 2 ^ 32) (snd e)) m.
Theorem C34_material_lines_partial :
  forall (V : FemVal) (m : list (val V * list Z)), femval_ok V -> filled m ->
    (material_values V m = separated (material_entries m) <->
     Forall (fun e => List.length (format_range_chunks (snd e) 1500) = 1%nat) m).
Proof. intros V m HV Hm. exact (material_values_iff V m HV Hm). Qed.
Print Assumptions C34_material_lines_partial.
(** A value whose id list needs two chunks, followed by another value. *)
Definition odd_ids : list Z := map (fun k => 2 * Z.of_nat k + 1) (seq 0 400).
Definition ex_materials : list (Q * list Z) := [((1 # 2)%Q, odd_ids); ((2 # 1)%Q, [2; 4])].
Theorem C34_material_lines_refuted :
  exists (V : FemVal) (m : list (val V * list Z)), femval_ok V /\ filled m /\
    material_values V m <> separated (material_entries m).
Proof.
  exists ExFem, ex_materials. assert (Hf : filled (V := ExFem) ex_materials).
  { apply Forall_cons; [|apply Forall_cons; [|constructor]]; cbn [snd]; (split; [discriminate|]).
    - unfold odd_ids. apply Forall_map. apply Forall_forall. intros k Hk. apply in_seq in Hk. lia.
    - repeat constructor; lia. }
  split; [apply ExFem_ok|]. split; [exact Hf|]. intros E.
  apply (C34_material_lines_partial ExFem ex_materials ExFem_ok Hf) in E. apply Forall_inv in E.
  vm_compute in E. discriminate.
Qed.
Print Assumptions C34_material_lines_refuted.
Example C34_instance : filled (V := ExFem) [((1 # 2)%Q, [1; 2]); ((3 # 1)%Q, [3])] /\
  material_values ExFem [((1 # 2)%Q, [1; 2]); ((3 # 1)%Q, [3])]
  = lit "              0.500000 1-2" ++ [LF] ++ lit "              3.000000 3".
Proof.
  split; [|vm_compute; reflexivity]. repeat (apply Forall_cons; [cbn [snd]; split; [discriminate|repeat constructor; lia]|]).
  constructor.
Qed.

(** ** Discrete features *)

(** The facets or edges to export: those whose aperture (area) is not negative. *)
Definition wanted {V : FemVal} (fi : option (features_in V)) : list (list Z * val V) :=
  match fi with
  | Some f => match fi_main V f with
              | Some vals => filter (fun p => negb (vneg V (snd p))) (combine (fi_cells V f) vals)
              | None => []
              end
  | None => []
  end.
(** Attributes have one value per facet or edge; at most 2^32 - 2 facets and edges. *)
Definition features_ok {V : FemVal} (s : solid V) : Prop :=
  fi_sized V (s_facets V s) /\ fi_sized V (s_edges V s) /\
  nb_cells V (s_facets V s) + nb_cells V (s_edges V s) + 1 < 2 ^ 32 /\
  Forall (fun p => Forall (fun v => 0 <= v < 2 ^ 32 - 1) (fst p)) (wanted (s_facets V s) ++ wanted (s_edges V s)).
Lemma kept_wanted {V : FemVal} (fi : option (features_in V)) : fi_sized V fi ->
  map fst (kept V (fi_rows V fi)) = wanted fi.
Proof.
  unfold fi_sized, fi_rows, wanted. destruct fi as [f|]; [|reflexivity]. destruct (fi_main V f) as [vals|]; [|reflexivity].
  intros [H1 H2]. unfold rows_of. destruct (fi_cond V f) as [cs|].
  - revert vals cs H1 H2. induction (fi_cells V f) as [|c l IH]; intros vals cs H1 H2; [reflexivity|].
    destruct vals as [|v vals]; [discriminate|]. destruct cs as [|x cs]; [discriminate|]. cbn [combine map fst snd kept filter].
    unfold is_kept at 1, row_val. cbn [fst snd]. destruct (negb (vneg V v)); cbn [map fst].
    + f_equal. apply IH; cbn in *; lia.
    + apply IH; cbn in *; lia.
  - clear H2. revert vals H1. induction (fi_cells V f) as [|c l IH]; intros vals H1; [reflexivity|].
    destruct vals as [|v vals]; [discriminate|]. cbn [combine map fst snd kept filter].
    unfold is_kept at 1, row_val. cbn [fst snd]. destruct (negb (vneg V v)); cbn [map fst].
    + f_equal. apply IH; cbn in *; lia.
    + apply IH; cbn in *; lia.
Qed.
Lemma rangez_all_ids n : rangez 1 n = all_ids n.
Proof.
  unfold all_ids. assert (E : forall k, rangez (Z.of_nat k + 1) n = map (fun k => Z.of_nat k + 1) (seq k n)).
  { induction n as [|n IH]; intros k; cbn [rangez seq map]; [reflexivity|]. f_equal.
    replace (Z.of_nat k + 1 + 1) with (Z.of_nat (S k) + 1) by lia. apply IH. }
  apply (E 0%nat).
Qed.
Lemma from_ids {A} id (l : list A) : map fst (from id l) = rangez id (List.length l) /\ map snd (from id l) = l.
Proof.
  unfold from. revert id. induction l as [|x l IH]; intros id; [split; reflexivity|]. cbn [List.length rangez combine map fst snd].
  destruct (IH (id + 1)) as [-> ->]. split; reflexivity.
Qed.
Lemma feats_ids V id ks : map snd (feats V id ks) = rangez id (List.length ks).
Proof. unfold feats. rewrite map_map. cbn [snd]. apply from_ids. Qed.
Lemma feats_nodes V id ks : map fst (feats V id ks) = map (fun p => shift_nodes (fst p)) (map fst ks).
Proof. unfold feats. rewrite map_map. cbn [fst]. rewrite map_map. rewrite <- (proj2 (from_ids id ks)) at 2. now rewrite map_map. Qed.
Lemma feats_length V id ks : List.length (feats V id ks) = List.length ks.
Proof. unfold feats, from. rewrite map_length, combine_length, rangez_length. lia. Qed.
Lemma build_shape V s f : features_ok s -> build_discrete_features V s = Ok f ->
  let k2 := kept V (fi_rows V (s_facets V s)) in let k1 := kept V (fi_rows V (s_edges V s)) in
  let id1 := 1 + Z.of_nat (List.length k2) in
  ((f2d V f = [] /\ k2 = []) \/ (f2d V f = [group_of V (lit "Surface_Feature_LDS") APERTURE 1 k2] /\ k2 <> [])) /\
  ((f1d V f = [] /\ k1 = []) \/ (f1d V f = [group_of V (lit "Edge_Feature_LDS") CONDUIT_AREA id1 k1] /\ k1 <> [])).
Proof.
  intros [H1 [H2 [H3 _]]] H k2 k1 id1. unfold build_discrete_features in H.
  apply bind_ok in H as [[g2 id] [B2 H]]. apply bind_ok in H as [[g1 id'] [B1 H]]. injection H as <-.
  cbn [f2d f1d]. change (2 ^ 32) with two32 in H3.
  assert (0 <= nb_cells V (s_edges V s)) by (unfold nb_cells; destruct (s_edges V s); lia).
  apply build_opt_ok in B2 as [E2 C2]; [|reflexivity|assumption|lia|lia].
  assert (Hk : Z.of_nat (List.length (kept V (fi_rows V (s_facets V s)))) <= nb_cells V (s_facets V s)).
  { unfold fi_rows, nb_cells, fi_sized in *. destruct (s_facets V s) as [f|]; [|cbn; lia].
    destruct (fi_main V f) as [vals|]; [|cbn; lia]. pose proof (kept_length V (rows_of V (fi_cells V f) vals (fi_cond V f))).
    rewrite rows_of_length in H0 by assumption. lia. }
  apply build_opt_ok in B1 as [E1 C1]; [|reflexivity|assumption|lia|lia].
  subst id. split; assumption.
Qed.

(** C35.  Discrete features are numbered 1..n, facets first; feature i has the vertices (plus one) of
    the i-th exported facet or edge; each group lists its own numbers; the announced count is n and
    the two sections that list the features have n feature lines. *)
Theorem C35_features_numbered :
  forall (V : FemVal) (s : solid V) (f : features V),
    features_ok s -> build_discrete_features V s = Ok f ->
    let fs := flat_map (g_features V) (f2d V f ++ f1d V f) in
    let n := List.length (wanted (s_facets V s) ++ wanted (s_edges V s)) in
    map snd fs = all_ids n /\
    map fst fs = map (fun p => map (fun v => v + 1) (fst p)) (wanted (s_facets V s) ++ wanted (s_edges V s)) /\
    nb_features V f = Z.of_nat n /\
    Forall (fun g => decode_chunks (format_range_chunks (g_ids V g) 1500) = map snd (g_features V g)) (f2d V f ++ f1d V f) /\
    List.length (filter (fun l => starts_with l " c") (text_lines (write_signatures V f))) = n /\
    List.length (filter is_incidence (text_lines (write_incidence V f))) = n.
Proof.
  intros V s f Hok Hb fs n. pose proof (build_shape V s f Hok Hb) as [S2 S1]. cbn zeta in *.
  destruct Hok as [Z2 [Z1 [Hlt Hv]]]. change (2 ^ 32) with two32 in *.
  pose proof (kept_wanted (s_facets V s) Z2) as W2. pose proof (kept_wanted (s_edges V s) Z1) as W1.
  set (k2 := kept V (fi_rows V (s_facets V s))) in *. set (k1 := kept V (fi_rows V (s_edges V s))) in *.
  set (id1 := 1 + Z.of_nat (List.length k2)) in *.
  assert (F2 : flat_map (g_features V) (f2d V f) = feats V 1 k2).
  { destruct S2 as [[-> ->]|[-> _]]; [reflexivity|]. cbn [flat_map]. now rewrite app_nil_r. }
  assert (F1 : flat_map (g_features V) (f1d V f) = feats V id1 k1).
  { destruct S1 as [[-> ->]|[-> _]]; [reflexivity|]. cbn [flat_map]. now rewrite app_nil_r. }
  assert (Hn : n = (List.length k2 + List.length k1)%nat).
  { unfold n. rewrite app_length, <- W2, <- W1, !map_length. reflexivity. }
  assert (B2 : Z.of_nat (List.length k2) <= nb_cells V (s_facets V s)).
  { unfold k2, fi_rows, nb_cells, fi_sized in *. destruct (s_facets V s) as [x|]; [|cbn; lia].
    destruct (fi_main V x) as [vals|]; [|cbn; lia]. pose proof (kept_length V (rows_of V (fi_cells V x) vals (fi_cond V x))).
    rewrite rows_of_length in H by assumption. lia. }
  assert (B1 : Z.of_nat (List.length k1) <= nb_cells V (s_edges V s)).
  { unfold k1, fi_rows, nb_cells, fi_sized in *. destruct (s_edges V s) as [x|]; [|cbn; lia].
    destruct (fi_main V x) as [vals|]; [|cbn; lia]. pose proof (kept_length V (rows_of V (fi_cells V x) vals (fi_cond V x))).
    rewrite rows_of_length in H by assumption. lia. }
  assert (N : map fst fs = map (fun p => map (fun v => v + 1) (fst p)) (wanted (s_facets V s) ++ wanted (s_edges V s))).
  { unfold fs. rewrite flat_map_app, F2, F1, map_app, !feats_nodes, W2, W1, <- map_app.
    apply map_ext_in. intros p Hp. unfold shift_nodes. apply map_ext_in. intros v Hin.
    rewrite Forall_forall in Hv. specialize (Hv p Hp). rewrite Forall_forall in Hv. specialize (Hv v Hin).
    apply add32_small; unfold two32 in *; lia. }
  assert (A2 : at_most_one (f2d V f)) by (destruct S2 as [[-> _]|[-> _]]; [now left|right; eauto]).
  assert (A1 : at_most_one (f1d V f)) by (destruct S1 as [[-> _]|[-> _]]; [now left|right; eauto]).
  assert (H2 : head_features V (f2d V f) = feats V 1 k2).
  { rewrite <- F2. destruct A2 as [->|[g ->]]; cbn; [reflexivity|now rewrite app_nil_r]. }
  assert (H1 : head_features V (f1d V f) = feats V id1 k1).
  { rewrite <- F1. destruct A1 as [->|[g ->]]; cbn; [reflexivity|now rewrite app_nil_r]. }
  split; [|split; [exact N|split; [|split; [|split]]]].
  - unfold fs. rewrite flat_map_app, F2, F1, map_app, !feats_ids, <- rangez_all_ids, Hn, rangez_app. reflexivity.
  - unfold nb_features. destruct S1 as [[E1 K1]|[E1 K1]], S2 as [[E2 K2]|[E2 K2]]; rewrite E1, E2; cbn [app fold_left group_of g_features];
      rewrite ?feats_length, Hn; try (rewrite K1 in * ); try (rewrite K2 in * ); cbn [List.length Z.of_nat] in *;
      rewrite ?Z.add_0_l, ?add32_small; unfold two32 in *; try lia.
    all: rewrite add32_small; unfold two32; lia.
  - apply Forall_app. split; [destruct S2 as [[-> _]|[-> _]]|destruct S1 as [[-> _]|[-> _]]]; try constructor; try constructor;
      cbn [group_of g_ids g_features]; rewrite feats_ids; apply chunks_elements; apply Forall_forall; intros e He;
      apply in_rangez in He; unfold id1, two32 in *; lia.
  - rewrite signatures_count by assumption. rewrite H2, H1, !feats_length. lia.
  - assert (Hf : Forall (fun ft => Forall (fun n => 0 <= n) (fst ft)) (head_features V (f2d V f) ++ head_features V (f1d V f))).
    { rewrite H2, H1, <- F2, <- F1, <- flat_map_app. fold fs. apply Forall_forall. intros ft Hft.
      apply (in_map fst) in Hft. rewrite N in Hft. apply in_map_iff in Hft as [p [E Hp]]. rewrite <- E.
      rewrite Forall_forall in Hv. specialize (Hv p Hp). apply Forall_map. eapply Forall_impl; [|exact Hv].
      cbn beta. intros v Hv'. lia. }
    rewrite incidence_count by assumption. rewrite H2, H1, !feats_length. lia.
Qed.
Print Assumptions C35_features_numbered.
Definition ex_solid : solid ExFem :=
  mkSolid ExFem [(0, 0, 0); (1, 0, 0); (0, 1, 0); (0, 0, 1); (1, 1, 1)]%Q [[0; 1; 2; 3]; [1; 2; 3; 4]] [] []
    (Some [[lit "b1"]; [lit "b1"; lit "b2"]; [lit "b1"; lit "b2"]; [lit "b1"; lit "b2"]; [lit "b2"]]) None
    (Some (mkFeatIn ExFem [[0; 1; 2]; [1; 2; 3]; [2; 3; 4]; [0; 1; 3]] (Some [1 # 2; -1 # 1; 1 # 2; 2 # 1]%Q) (Some [1; 1; -1; 3]%Q)))
    (Some (mkFeatIn ExFem [[0; 1]; [1; 2]; [2; 3]] (Some [2 # 1; -1 # 1; 5 # 1]%Q) None)).
Lemma ex_solid_ok : features_ok ex_solid.
Proof.
  split; [|split; [|split]].
  - split; reflexivity.
  - split; [reflexivity|exact I].
  - vm_compute. reflexivity.
  - change (wanted (s_facets ExFem ex_solid) ++ wanted (s_edges ExFem ex_solid))
      with [([0; 1; 2], (1 # 2)%Q); ([2; 3; 4], (1 # 2)%Q); ([0; 1; 3], (2 # 1)%Q); ([0; 1], (2 # 1)%Q); ([2; 3], (5 # 1)%Q)].
    do 5 (apply Forall_cons; [cbn [fst]; repeat (apply Forall_cons; [lia|]); constructor|]). constructor.
Qed.
Example C35_instance : features_ok ex_solid /\
  match build_discrete_features ExFem ex_solid with
  | Ok f => leqb zz_eqb (map (fun x => (Z.of_nat (List.length (fst x)), snd x)) (flat_map (g_features ExFem) (f2d ExFem f ++ f1d ExFem f)))
              [(3, 1); (3, 2); (3, 3); (2, 4); (2, 5)]
  | _ => false
  end = true.
Proof. split; [apply ex_solid_ok|vm_compute; reflexivity]. Qed.

(** ** Material tables *)

(** The pairs (feature, value) of a table written by [write_material_property]. *)
Lemma material_words V v c : femval_ok V -> words (material_entry V v c) = vos V v :: words c.
Proof.
  intros HV. unfold material_entry, add_spaces. cbn [repeat app]. rewrite !words_sep by reflexivity.
  apply words_tok_sep; [apply (vos_token V HV)|reflexivity].
Qed.
Lemma material_entries_cons {V : FemVal} k es (t : list (val V * list Z)) :
  material_entries ((k, es) :: t) = map (material_entry V k) (format_range_chunks es 1500) ++ material_entries t.
Proof. reflexivity. Qed.
Lemma material_table V ps m : femval_ok V -> (forall p, In p ps -> 1 <= fst p < two32) -> table_inv (veqb V) ps m ->
  Permutation (flat_map entry_ids (material_entries (viter V _ m))) (map fst ps) /\
  forall l, In l (material_entries (viter V _ m)) -> exists v, entry_text l = vos V v /\
    forall e, In e (entry_ids l) -> exists w, In (e, w) ps /\ veqb V w v = true.
Proof.
  intros HV Hps I. pose proof (viter_perm V HV _ m) as P.
  assert (R : forall k es, In (k, es) (viter V _ m) -> es = holds (veqb V) ps k /\ Forall (fun e => 1 <= e < two32) es).
  { intros k es Hin. apply (Permutation_in _ P) in Hin. apply (ti_lists _ _ _ I) in Hin as [E _]. split; [exact E|].
    subst es. apply Forall_forall. intros e He. unfold holds in He. apply in_map_iff in He as [p [<- Hp]].
    apply filter_In in Hp as [Hp _]. now apply Hps. }
  assert (D : forall k c, entry_ids (material_entry V k c) = decode_chunk c).
  { intros k c. unfold entry_ids. now rewrite material_words. }
  split.
  - rewrite <- (table_partition (veqb V) (veqb_refl V HV) (veqb_sym V HV) (veqb_trans V HV) ps m (map fst (viter V _ m)) I
      (Permutation_map fst P)).
    assert (E : forall t, incl t (viter V _ m) -> flat_map entry_ids (material_entries t)
                = flat_map (fun k => table_get (veqb V) k m) (map fst t)).
    { induction t as [|[k es] t IH]; intros Hi; [reflexivity|]. rewrite material_entries_cons, flat_map_app. cbn [map flat_map fst].
      rewrite IH by (intros z Hz; apply Hi; now right). f_equal.
      assert (Hk : In (k, es) (viter V _ m)) by (apply Hi; now left). destruct (R k es Hk) as [_ Hr].
      rewrite (table_get_in (veqb V) (veqb_refl V HV) (veqb_sym V HV) m k es (ti_distinct _ _ _ I) (Permutation_in _ P Hk)).
      rewrite <- (chunks_elements es 1500 Hr) at 2. unfold decode_chunks. rewrite flat_map_concat_map, map_map, flat_map_concat_map.
      f_equal. apply map_ext. intros c. apply (D k c). }
    rewrite (E _ (incl_refl _)). reflexivity.
  - intros l Hl. unfold material_entries in Hl. apply in_flat_map in Hl as [[k es] [Hk Hl]]. cbn [fst snd] in Hl.
    apply in_map_iff in Hl as [c [<- Hc]]. exists k. fold (add_spaces 14). fold (material_entry V k c). split.
    + unfold entry_text. now rewrite material_words.
    + intros e He. rewrite D in He. destruct (R k es Hk) as [Eh Hr].
      assert (He' : In e es).
      { rewrite <- (chunks_elements es 1500 Hr). unfold decode_chunks. apply in_flat_map. eauto. }
      rewrite Eh in He'. unfold holds in He'. apply in_map_iff in He' as [[e' w] [<- Hp]].
      apply filter_In in Hp as [Hp Hw]. exists w. auto.
Qed.
Lemma expand_pairs V ps : femval_ok V ->
  Permutation (map fst (expand V (viter V _ (table_of (veqb V) ps)))) (map fst ps) /\
  forall e v, In (e, v) (expand V (viter V _ (table_of (veqb V) ps))) -> exists w, In (e, w) ps /\ veqb V w v = true.
Proof.
  intros HV. pose proof (table_of_inv (veqb V) (veqb_refl V HV) (veqb_sym V HV) (veqb_trans V HV) ps) as I.
  set (m := table_of (veqb V) ps) in *. pose proof (viter_perm V HV _ m) as P. split.
  - rewrite <- (table_partition (veqb V) (veqb_refl V HV) (veqb_sym V HV) (veqb_trans V HV) ps m (map fst (viter V _ m)) I
      (Permutation_map fst P)).
    assert (E : forall t, incl t (viter V _ m) -> map fst (expand V t) = flat_map (fun k => table_get (veqb V) k m) (map fst t)).
    { induction t as [|[k es] t IH]; intros Hi; [reflexivity|]. unfold expand. cbn [flat_map map fst snd]. rewrite map_app.
      fold (expand V t). rewrite IH by (intros z Hz; apply Hi; now right). f_equal. rewrite map_map. cbn [fst]. rewrite map_id.
      assert (Hk : In (k, es) (viter V _ m)) by (apply Hi; now left).
      now rewrite (table_get_in (veqb V) (veqb_refl V HV) (veqb_sym V HV) m k es (ti_distinct _ _ _ I) (Permutation_in _ P Hk)). }
    rewrite (E _ (incl_refl _)). reflexivity.
  - intros e v H. unfold expand in H. apply in_flat_map in H as [[k es] [Hk H]]. cbn [fst snd] in H.
    apply in_map_iff in H as [i [E Hi]]. injection E as <- <-. apply (Permutation_in _ P) in Hk.
    apply (ti_lists _ _ _ I) in Hk as [E _]. rewrite E in Hi. unfold holds in Hi. apply in_map_iff in Hi as [[e w] [<- Hp]].
    apply filter_In in Hp as [Hp Hw]. exists w. auto.
Qed.
(** One table, or two tables merged: each pair once. *)
Lemma merged_table V ps1 ps2 : femval_ok V -> (forall p, In p (ps1 ++ ps2) -> 1 <= fst p < two32) ->
  let m := combine_maps V (table_of (veqb V) ps1) (table_of (veqb V) ps2) in
  Permutation (flat_map entry_ids (material_entries (viter V _ m))) (map fst (ps1 ++ ps2)) /\
  forall l, In l (material_entries (viter V _ m)) -> exists v, entry_text l = vos V v /\
    forall e, In e (entry_ids l) -> exists w, In (e, w) (ps1 ++ ps2) /\ veqb V w v = true.
Proof.
  intros HV H m. destruct (expand_pairs V ps2 HV) as [E1 E2].
  set (ps3 := expand V (viter V _ (table_of (veqb V) ps2))) in *.
  assert (Em : m = table_of (veqb V) (ps1 ++ ps3)).
  { unfold m. apply combine_table_of; [assumption|]. apply Forall_forall. intros [k es] Hin.
    apply (ti_lists _ _ _ (table_of_inv (veqb V) (veqb_refl V HV) (veqb_sym V HV) (veqb_trans V HV) ps2)) in Hin. apply Hin. }
  destruct (material_table V (ps1 ++ ps3) m HV) as [M1 M2].
  - intros [e v] Hp. apply in_app_iff in Hp as [Hp|Hp].
    + apply (H (e, v)). apply in_app_iff. now left.
    + destruct (E2 e v Hp) as [w [Hw _]]. apply (H (e, w)). apply in_app_iff. now right.
  - rewrite Em. apply table_of_inv; [apply (veqb_refl V HV)|apply (veqb_sym V HV)|apply (veqb_trans V HV)].
  - split.
    + rewrite M1, !map_app. now apply Permutation_app_head.
    + intros l Hl. destruct (M2 l Hl) as [v [T1 T2]]. exists v. split; [assumption|]. intros e He.
      destruct (T2 e He) as [w [Hw Ew]]. apply in_app_iff in Hw as [Hw|Hw].
      * exists w. split; [apply in_app_iff; now left|assumption].
      * destruct (E2 e w Hw) as [w' [Hw' Ew']]. exists w'. split; [apply in_app_iff; now right|].
        now apply (veqb_trans V HV w' w v).
Qed.
Lemma single_table V ps : femval_ok V -> (forall p, In p ps -> 1 <= fst p < two32) ->
  let m := table_of (veqb V) ps in
  Permutation (flat_map entry_ids (material_entries (viter V _ m))) (map fst ps) /\
  forall l, In l (material_entries (viter V _ m)) -> exists v, entry_text l = vos V v /\
    forall e, In e (entry_ids l) -> exists w, In (e, w) ps /\ veqb V w v = true.
Proof.
  intros HV H m. apply material_table; [assumption|assumption|].
  apply table_of_inv; [apply (veqb_refl V HV)|apply (veqb_sym V HV)|apply (veqb_trans V HV)].
Qed.
Lemma in_from {A} id (l : list A) e x : In (e, x) (from id l) -> id <= e < id + Z.of_nat (List.length l) /\ nth_error l (Z.to_nat (e - id)) = Some x.
Proof.
  unfold from. revert id. induction l as [|y l IH]; intros id H; [destruct H|]. cbn [List.length rangez combine] in H.
  destruct H as [H|H].
  - injection H as <- <-. cbn [List.length]. split; [lia|]. now rewrite Z.sub_diag.
  - apply IH in H as [H1 H2]. cbn [List.length]. split; [lia|].
    replace (Z.to_nat (e - id)) with (S (Z.to_nat (e - (id + 1)))) by lia. exact H2.
Qed.
Lemma from_app {A} id (a b : list A) : from id (a ++ b) = from id a ++ from (id + Z.of_nat (List.length a)) b.
Proof.
  revert id. induction a as [|x a IH]; intros id; [cbn [app List.length Z.of_nat]; now rewrite Z.add_0_r|].
  unfold from in *. cbn [app List.length rangez combine]. f_equal. rewrite IH. do 3 f_equal. lia.
Qed.
Lemma kept_bound {V : FemVal} (fi : option (features_in V)) : fi_sized V fi ->
  Z.of_nat (List.length (kept V (fi_rows V fi))) <= nb_cells V fi.
Proof.
  intros H. unfold fi_rows, nb_cells, fi_sized in *. destruct fi as [x|]; [|cbn; lia].
  destruct (fi_main V x) as [vals|]; [|cbn; lia]. pose proof (kept_length V (rows_of V (fi_cells V x) vals (fi_cond V x))) as L.
  rewrite rows_of_length in L by assumption. lia.
Qed.

(** C56.  The AREA table lists every discrete feature exactly once, under the text of its own
    aperture (facets) or area (edges). *)
Theorem C56_area_table :
  forall (V : FemVal) (s : solid V) (f : features V),
    femval_ok V -> features_ok s -> build_discrete_features V s = Ok f ->
    let all := wanted (s_facets V s) ++ wanted (s_edges V s) in
    all <> [] ->
    exists m, area_text V f = Ok (write_material_property V "AREA" m) /\
      Permutation (flat_map entry_ids (material_entries (viter V _ m))) (all_ids (List.length all)) /\
      forall l, In l (material_entries (viter V _ m)) -> exists v, entry_text l = vos V v /\
        forall e, In e (entry_ids l) ->
          exists cell w, nth_error all (Z.to_nat (e - 1)) = Some (cell, w) /\ veqb V w v = true.
Proof.
  intros V s f HV Hok Hb all Hne. pose proof (build_shape V s f Hok Hb) as [S2 S1]. cbn zeta in *.
  destruct Hok as [Z2 [Z1 [Hlt _]]]. change (2 ^ 32) with two32 in *.
  pose proof (kept_wanted (s_facets V s) Z2) as W2. pose proof (kept_wanted (s_edges V s) Z1) as W1.
  pose proof (kept_bound (s_facets V s) Z2) as B2. pose proof (kept_bound (s_edges V s) Z1) as B1.
  set (k2 := kept V (fi_rows V (s_facets V s))) in *. set (k1 := kept V (fi_rows V (s_edges V s))) in *.
  set (id1 := 1 + Z.of_nat (List.length k2)) in *.
  assert (Ha : all = map fst (k2 ++ k1)) by (unfold all; rewrite <- W2, <- W1; symmetry; apply map_app).
  assert (Hp : main_pairs V 1 k2 ++ main_pairs V id1 k1 = main_pairs V 1 (k2 ++ k1)).
  { unfold main_pairs. now rewrite from_app, map_app. }
  assert (Hr : forall p, In p (main_pairs V 1 (k2 ++ k1)) -> 1 <= fst p < two32).
  { intros p Hin. unfold main_pairs in Hin. apply in_map_iff in Hin as [[e x] [<- Hin]]. apply in_from in Hin as [Hin _].
    cbn [fst]. rewrite app_length in Hin. unfold two32 in *. lia. }
  assert (Hids : map fst (main_pairs V 1 (k2 ++ k1)) = all_ids (List.length all)).
  { unfold main_pairs. rewrite map_map. cbn [fst]. transitivity (map fst (from 1 (k2 ++ k1))); [reflexivity|].
    rewrite (proj1 (from_ids 1 (k2 ++ k1))), Ha, map_length. apply rangez_all_ids. }
  assert (Hv : forall e w, In (e, w) (main_pairs V 1 (k2 ++ k1)) -> exists cell, nth_error all (Z.to_nat (e - 1)) = Some (cell, w)).
  { intros e w Hin. unfold main_pairs in Hin. apply in_map_iff in Hin as [[e' x] [E Hin]]. injection E as <- <-.
    cbn [fst snd] in *. apply in_from in Hin as [_ Hin]. exists (fst (fst x)). rewrite Ha.
    rewrite (map_nth_error fst _ _ Hin). unfold row_val. now destruct x as [[c v] o]. }
  assert (Fin : forall m, area_text V f = Ok (write_material_property V "AREA" m) ->
    Permutation (flat_map entry_ids (material_entries (viter V _ m))) (map fst (main_pairs V 1 (k2 ++ k1))) /\
    (forall l, In l (material_entries (viter V _ m)) -> exists v, entry_text l = vos V v /\
      forall e, In e (entry_ids l) -> exists w, In (e, w) (main_pairs V 1 (k2 ++ k1)) /\ veqb V w v = true) ->
    exists m, area_text V f = Ok (write_material_property V "AREA" m) /\
      Permutation (flat_map entry_ids (material_entries (viter V _ m))) (all_ids (List.length all)) /\
      forall l, In l (material_entries (viter V _ m)) -> exists v, entry_text l = vos V v /\
        forall e, In e (entry_ids l) ->
          exists cell w, nth_error all (Z.to_nat (e - 1)) = Some (cell, w) /\ veqb V w v = true).
  { intros m Em [M1 M2]. exists m. split; [assumption|]. rewrite <- Hids. split; [assumption|].
    intros l Hl. destruct (M2 l Hl) as [v [T1 T2]]. exists v. split; [assumption|]. intros e He.
    destruct (T2 e He) as [w [Hw Ew]]. destruct (Hv e w Hw) as [cell Hc]. eauto. }
  assert (Q : forall name main id ks, ks <> [] ->
    opt_property V main [group_of V name main id ks] = Some 0%nat /\
    table_at V [group_of V name main id ks] 0 = Ok (table_of (veqb V) (main_pairs V id ks))).
  { intros name main id ks Hk. destruct ks as [|k ks]; [contradiction|].
    unfold opt_property, get_property, group_of, table_at. cbn [g_props props get_property_from front bind].
    rewrite beq_refl. split; reflexivity. }
  destruct S2 as [[E2 K2]|[E2 K2]], S1 as [[E1 K1]|[E1 K1]].
  - exfalso. apply Hne. now rewrite Ha, K2, K1.
  - destruct (Q (lit "Edge_Feature_LDS") CONDUIT_AREA id1 k1 K1) as [Q1 Q2].
    apply (Fin (table_of (veqb V) (main_pairs V id1 k1))).
    + unfold area_text. rewrite E2, E1, Q1, Q2. reflexivity.
    + assert (Ep : main_pairs V 1 (k2 ++ k1) = main_pairs V id1 k1) by (rewrite <- Hp, K2; reflexivity).
      rewrite Ep in *. now apply single_table.
  - destruct (Q (lit "Surface_Feature_LDS") APERTURE 1 k2 K2) as [Q1 Q2].
    apply (Fin (table_of (veqb V) (main_pairs V 1 k2))).
    + unfold area_text. rewrite E2, E1, Q1. cbn [opt_property]. rewrite Q2. reflexivity.
    + assert (Ep : main_pairs V 1 (k2 ++ k1) = main_pairs V 1 k2) by (rewrite K1, app_nil_r; reflexivity).
      rewrite Ep in *. now apply single_table.
  - destruct (Q (lit "Edge_Feature_LDS") CONDUIT_AREA id1 k1 K1) as [Q1 Q2].
    destruct (Q (lit "Surface_Feature_LDS") APERTURE 1 k2 K2) as [Q3 Q4].
    apply (Fin (combine_maps V (table_of (veqb V) (main_pairs V 1 k2)) (table_of (veqb V) (main_pairs V id1 k1)))).
    + unfold area_text. rewrite E2, E1, Q1, Q3, Q2, Q4. reflexivity.
    + rewrite <- Hp in *. now apply merged_table.
Qed.
Print Assumptions C56_area_table.
Definition text_is (r : res bytes) (t : bytes) : bool := match r with Ok x => beq x t | _ => false end.
Example C56_instance : features_ok ex_solid /\
  match build_discrete_features ExFem ex_solid with
  | Ok f => text_is (area_text ExFem f)
      (line (lit "          <material id=" ++ quoted (lit "AREA") ++ lit ">") ++ line "            <![CDATA[" ++
       line "              0.500000 1-2" ++ line "              2.000000 3-4" ++
       line "              5.000000 5 ]]>" ++ line "          </material>")
  | _ => false
  end = true.
Proof. split; [apply ex_solid_ok|vm_compute; reflexivity]. Qed.

(** C57.  The COND table lists, exactly once and under its own value, every discrete feature with a
    positive conductivity, and no other. *)
Definition conductivities {V : FemVal} (fi : option (features_in V)) : list (option (val V)) :=
  match fi with
  | Some f =>
    match fi_main V f with
    | Some vals =>
      map snd (filter (fun p => negb (vneg V (fst p)))
        (combine vals (match fi_cond V f with Some cs => map Some cs | None => repeat None (List.length vals) end)))
    | None => []
    end
  | None => []
  end.
Definition conducting {V : FemVal} (all : list (option (val V))) (e : Z) : bool :=
  match nth_error all (Z.to_nat (e - 1)) with Some (Some c) => vpos V c | _ => false end.
Lemma kept_conds {V : FemVal} (fi : option (features_in V)) : fi_sized V fi ->
  map snd (kept V (fi_rows V fi)) = conductivities fi.
Proof.
  unfold fi_sized, fi_rows, conductivities. destruct fi as [f|]; [|reflexivity]. destruct (fi_main V f) as [vals|]; [|reflexivity].
  intros [H1 H2]. unfold rows_of. destruct (fi_cond V f) as [cs|].
  - revert vals cs H1 H2. induction (fi_cells V f) as [|c l IH]; intros vals cs H1 H2.
    + destruct vals; [reflexivity|discriminate].
    + destruct vals as [|v vals]; [discriminate|]. destruct cs as [|x cs]; [discriminate|]. cbn [combine map fst snd kept filter].
      unfold is_kept at 1, row_val. cbn [fst snd]. destruct (negb (vneg V v)); cbn [map snd].
      * f_equal. apply IH; cbn in *; lia.
      * apply IH; cbn in *; lia.
  - clear H2. revert vals H1. induction (fi_cells V f) as [|c l IH]; intros vals H1.
    + destruct vals; [reflexivity|discriminate].
    + destruct vals as [|v vals]; [discriminate|]. cbn [combine map fst snd kept filter List.length repeat].
      unfold is_kept at 1, row_val. cbn [fst snd]. destruct (negb (vneg V v)); cbn [map snd].
      * f_equal. apply IH; cbn in *; lia.
      * apply IH; cbn in *; lia.
Qed.
Lemma cond_ids V ks : forall id, 
  map fst (cond_pairs V id ks) = filter (fun e => match nth_error (map snd ks) (Z.to_nat (e - id)) with Some (Some c) => vpos V c | _ => false end)
    (rangez id (List.length ks)).
Proof.
  induction ks as [|k ks IH]; intros id; [reflexivity|]. unfold cond_pairs, from. cbn [List.length rangez combine flat_map].
  rewrite map_app. fold (from (id + 1) ks). fold (cond_pairs V (id + 1) ks). rewrite IH. cbn [filter map].
  rewrite Z.sub_diag. cbn [Z.to_nat nth_error].
  assert (E : filter (fun e => match nth_error (map snd ks) (Z.to_nat (e - (id + 1))) with Some (Some c) => vpos V c | _ => false end)
      (rangez (id + 1) (List.length ks))
    = filter (fun e => match nth_error (snd k :: map snd ks) (Z.to_nat (e - id)) with Some (Some c) => vpos V c | _ => false end)
      (rangez (id + 1) (List.length ks))).
  { apply filter_ext_in. intros e He. apply in_rangez in He.
    replace (Z.to_nat (e - id)) with (S (Z.to_nat (e - (id + 1)))) by lia. reflexivity. }
  rewrite E. unfold cond_pair. cbn [snd fst]. destruct (snd k) as [c|]; [|reflexivity]. destruct (vpos V c); reflexivity.
Qed.
Theorem C57_cond_table :
  forall (V : FemVal) (s : solid V) (f : features V),
    femval_ok V -> features_ok s -> build_discrete_features V s = Ok f ->
    let all := conductivities (s_facets V s) ++ conductivities (s_edges V s) in
    let listed := filter (conducting all) (all_ids (List.length all)) in
    (listed = [] -> cond_text V f = Ok []) /\
    (listed <> [] ->
     exists m, cond_text V f = Ok (write_material_property V "COND" m) /\
      Permutation (flat_map entry_ids (material_entries (viter V _ m))) listed /\
      forall l, In l (material_entries (viter V _ m)) -> exists v, entry_text l = vos V v /\
        forall e, In e (entry_ids l) ->
          exists c, nth_error all (Z.to_nat (e - 1)) = Some (Some c) /\ veqb V c v = true).
Proof.
  intros V s f HV Hok Hb all listed. pose proof (build_shape V s f Hok Hb) as [S2 S1]. cbn zeta in *.
  destruct Hok as [Z2 [Z1 [Hlt _]]]. change (2 ^ 32) with two32 in *.
  pose proof (kept_conds (s_facets V s) Z2) as W2. pose proof (kept_conds (s_edges V s) Z1) as W1.
  pose proof (kept_bound (s_facets V s) Z2) as B2. pose proof (kept_bound (s_edges V s) Z1) as B1.
  set (k2 := kept V (fi_rows V (s_facets V s))) in *. set (k1 := kept V (fi_rows V (s_edges V s))) in *.
  set (id1 := 1 + Z.of_nat (List.length k2)) in *.
  assert (Ha : all = map snd (k2 ++ k1)) by (unfold all; rewrite <- W2, <- W1; symmetry; apply map_app).
  assert (Hp : cond_pairs V 1 k2 ++ cond_pairs V id1 k1 = cond_pairs V 1 (k2 ++ k1)).
  { unfold cond_pairs. now rewrite from_app, flat_map_app. }
  assert (Hin : forall p, In p (cond_pairs V 1 (k2 ++ k1)) -> 1 <= fst p < two32 /\ nth_error all (Z.to_nat (fst p - 1)) = Some (Some (snd p))).
  { intros p Hi. unfold cond_pairs in Hi. apply in_flat_map in Hi as [[e x] [Hi Hc]]. apply in_from in Hi as [Hi Hn].
    unfold cond_pair in Hc. cbn [fst snd] in Hc. destruct (snd x) as [c|] eqn:Ex; [|destruct Hc].
    destruct (vpos V c); [|destruct Hc]. destruct Hc as [<-|[]]. cbn [fst snd]. rewrite app_length in Hi.
    split; [unfold two32 in *; lia|]. rewrite Ha, (map_nth_error snd _ _ Hn). now rewrite Ex. }
  assert (Hids : map fst (cond_pairs V 1 (k2 ++ k1)) = listed).
  { rewrite cond_ids. unfold listed. rewrite Ha, map_length, <- rangez_all_ids. reflexivity. }
  assert (Q : forall name main id ks, beq main CONDUCTIVITY = false ->
    (cond_pairs V id ks = [] -> opt_property V CONDUCTIVITY [group_of V name main id ks] = None) /\
    (cond_pairs V id ks <> [] -> exists i, opt_property V CONDUCTIVITY [group_of V name main id ks] = Some i /\
      table_at V [group_of V name main id ks] i = Ok (table_of (veqb V) (cond_pairs V id ks)))).
  { intros name main id ks Hm. destruct ks as [|k ks]; [split; [reflexivity|intros N; contradiction N; reflexivity]|].
    unfold opt_property, get_property, group_of, table_at. cbn [g_props props get_property_from front bind].
    rewrite Hm. destruct (cond_pairs V id (k :: ks)) as [|x cs]; (split; [intros E; try discriminate; reflexivity|intros N]).
    - contradiction.
    - exists 1%nat. cbn [get_property_from]. rewrite beq_refl. split; reflexivity. }
  pose proof (Q (lit "Surface_Feature_LDS") APERTURE 1 k2 eq_refl) as [QA QB].
  pose proof (Q (lit "Edge_Feature_LDS") CONDUIT_AREA id1 k1 eq_refl) as [QC QD].
  assert (O2 : (opt_property V CONDUCTIVITY (f2d V f) = None /\ cond_pairs V 1 k2 = []) \/
    (exists i, opt_property V CONDUCTIVITY (f2d V f) = Some i /\ table_at V (f2d V f) i = Ok (table_of (veqb V) (cond_pairs V 1 k2)))).
  { destruct S2 as [[E2 K2]|[E2 K2]]; rewrite E2; [left; rewrite K2; split; reflexivity|].
    destruct (cond_pairs V 1 k2) as [|x cs] eqn:Ec; [left; split; [now apply QA|reflexivity]|right; apply QB; discriminate]. }
  assert (O1 : (opt_property V CONDUCTIVITY (f1d V f) = None /\ cond_pairs V id1 k1 = []) \/
    (exists i, opt_property V CONDUCTIVITY (f1d V f) = Some i /\ table_at V (f1d V f) i = Ok (table_of (veqb V) (cond_pairs V id1 k1)))).
  { destruct S1 as [[E1 K1]|[E1 K1]]; rewrite E1; [left; rewrite K1; split; reflexivity|].
    destruct (cond_pairs V id1 k1) as [|x cs] eqn:Ec; [left; split; [now apply QC|reflexivity]|right; apply QD; discriminate]. }
  assert (O2' : forall i, opt_property V CONDUCTIVITY (f2d V f) = Some i -> cond_pairs V 1 k2 <> []).
  { intros i Hi N. destruct S2 as [[E2 K2]|[E2 K2]]; rewrite E2 in Hi; [discriminate|]. rewrite (QA N) in Hi. discriminate. }
  assert (O1' : forall i, opt_property V CONDUCTIVITY (f1d V f) = Some i -> cond_pairs V id1 k1 <> []).
  { intros i Hi N. destruct S1 as [[E1 K1]|[E1 K1]]; rewrite E1 in Hi; [discriminate|]. rewrite (QC N) in Hi. discriminate. }
  assert (Fin : forall m, cond_text V f = Ok (write_material_property V "COND" m) ->
    Permutation (flat_map entry_ids (material_entries (viter V _ m))) (map fst (cond_pairs V 1 (k2 ++ k1))) /\
    (forall l, In l (material_entries (viter V _ m)) -> exists v, entry_text l = vos V v /\
      forall e, In e (entry_ids l) -> exists w, In (e, w) (cond_pairs V 1 (k2 ++ k1)) /\ veqb V w v = true) ->
    exists m, cond_text V f = Ok (write_material_property V "COND" m) /\
      Permutation (flat_map entry_ids (material_entries (viter V _ m))) listed /\
      forall l, In l (material_entries (viter V _ m)) -> exists v, entry_text l = vos V v /\
        forall e, In e (entry_ids l) ->
          exists c, nth_error all (Z.to_nat (e - 1)) = Some (Some c) /\ veqb V c v = true).
  { intros m Em [M1 M2]. exists m. split; [assumption|]. rewrite <- Hids. split; [assumption|].
    intros l Hl. destruct (M2 l Hl) as [v [T1 T2]]. exists v. split; [assumption|]. intros e He.
    destruct (T2 e He) as [w [Hw Ew]]. exists w. split; [|assumption]. apply (Hin (e, w) Hw). }
  assert (Hr : forall p, In p (cond_pairs V 1 (k2 ++ k1)) -> 1 <= fst p < two32) by (intros p Hp'; now apply Hin).
  destruct O2 as [[N2 C2]|[i [T2 M2]]], O1 as [[N1 C1]|[j [T1 M1]]].
  - split; [intros _; unfold cond_text; now rewrite N2, N1|]. intros N. exfalso. apply N.
    rewrite <- Hids, <- Hp, C2, C1. reflexivity.
  - split.
    + intros E. exfalso. apply (O1' j T1). rewrite <- Hids, <- Hp, C2 in E. now apply map_eq_nil in E.
    + intros _. apply (Fin (table_of (veqb V) (cond_pairs V id1 k1))).
      * unfold cond_text. rewrite N2, T1, M1. reflexivity.
      * rewrite <- Hp, C2 in *. now apply single_table.
  - split.
    + intros E. exfalso. apply (O2' i T2). rewrite <- Hids, <- Hp, C1, app_nil_r in E. now apply map_eq_nil in E.
    + intros _. apply (Fin (table_of (veqb V) (cond_pairs V 1 k2))).
      * unfold cond_text. rewrite N1, T2, M2. reflexivity.
      * rewrite <- Hp, C1, app_nil_r in *. now apply single_table.
  - split.
    + intros E. exfalso. apply (O2' i T2). rewrite <- Hids, <- Hp in E. apply map_eq_nil in E. now apply app_eq_nil in E.
    + intros _. apply (Fin (combine_maps V (table_of (veqb V) (cond_pairs V 1 k2)) (table_of (veqb V) (cond_pairs V id1 k1)))).
      * unfold cond_text. rewrite T2, T1, M2, M1. reflexivity.
      * rewrite <- Hp in *. now apply merged_table.
Qed.
Print Assumptions C57_cond_table.
Example C57_instance : features_ok ex_solid /\
  filter (conducting (V := ExFem) (conductivities (s_facets ExFem ex_solid) ++ conductivities (s_edges ExFem ex_solid))) (all_ids 5) = [1; 3] /\
  match build_discrete_features ExFem ex_solid with
  | Ok f => text_is (cond_text ExFem f)
      (line (lit "          <material id=" ++ quoted (lit "COND") ++ lit ">") ++ line "            <![CDATA[" ++
       line "              1.000000 1" ++ line "              3.000000 3 ]]>" ++ line "          </material>")
  | _ => false
  end = true.
Proof. split; [apply ex_solid_ok|]. split; vm_compute; reflexivity. Qed.

(** C58.  Nodal sets: every vertex is listed exactly once under each of its blocks, and nowhere else. *)
Fixpoint occurrences (i : Z) (names : list (list bytes)) : list (Z * bytes) :=
  match names with
  | [] => []
  | ns :: r => map (fun n => (i, n)) ns ++ occurrences (i + 1) r
  end.
Lemma fold_names k ns : forall m,
  fold_left (fun m p => table_add beq (snd p) (fst p) m) (map (fun n : bytes => (k, n)) ns) m
  = fold_left (fun m x => table_add beq x k m) ns m.
Proof. induction ns as [|x ns IH]; intros m; [reflexivity|]. cbn [map fold_left fst snd]. apply IH. Qed.
Lemma region_fold n names : forall pre m, names = pre ++ skipn (List.length pre) names ->
  (List.length pre + n = List.length names)%nat -> Z.of_nat (List.length names) < two32 ->
  foldM (fun m v => do ns <- idxz names v; Ok (fold_left (fun m x => table_add beq x (add32 v 1) m) ns m))
    (rangez (Z.of_nat (List.length pre)) n) m
  = Ok (fold_left (fun m p => table_add beq (snd p) (fst p) m)
          (occurrences (Z.of_nat (List.length pre) + 1) (skipn (List.length pre) names)) m).
Proof.
  induction n as [|n IH]; intros pre m E L Hlt.
  - replace (List.length pre) with (List.length names) by lia. rewrite skipn_all. reflexivity.
  - cbn [rangez foldM]. destruct (skipn (List.length pre) names) as [|ns r] eqn:Es.
    { rewrite app_nil_r in E. apply (f_equal (@List.length _)) in E. lia. }
    unfold idxz at 1. rewrite nthz_nat. rewrite E at 1. rewrite nth_error_app2, Nat.sub_diag by lia. cbn [nth_error bind].
    assert (Hs : skipn (List.length (pre ++ [ns])) names = r).
    { rewrite E. change (ns :: r) with ([ns] ++ r). rewrite app_assoc, skipn_app, skipn_all, Nat.sub_diag. reflexivity. }
    replace (Z.of_nat (List.length pre) + 1) with (Z.of_nat (List.length (pre ++ [ns]))) by (rewrite app_length; cbn; lia).
    rewrite (IH (pre ++ [ns])).
    + rewrite Hs. cbn [occurrences]. rewrite fold_left_app, app_length. cbn [List.length].
      replace (Z.of_nat (List.length pre + 1)) with (Z.of_nat (List.length pre) + 1) by lia. rewrite add32_small by lia.
      now rewrite fold_names.
    + rewrite <- app_assoc. cbn [app]. rewrite Hs. assumption.
    + rewrite app_length. cbn. lia.
    + assumption.
Qed.
Lemma occurrences_in names : forall i e x, In (e, x) (occurrences i names) ->
  i <= e < i + Z.of_nat (List.length names) /\ exists ns, nth_error names (Z.to_nat (e - i)) = Some ns /\ In x ns.
Proof.
  induction names as [|ns r IH]; intros i e x H; [destruct H|]. cbn [occurrences] in H. apply in_app_iff in H as [H|H].
  - apply in_map_iff in H as [n [E Hn]]. injection E as <- <-. cbn [List.length]. split; [lia|]. rewrite Z.sub_diag. exists ns. auto.
  - apply IH in H as [H1 H2]. cbn [List.length]. split; [lia|].
    replace (Z.to_nat (e - i)) with (S (Z.to_nat (e - (i + 1)))) by lia. exact H2.
Qed.
Theorem C58_nodal_sets :
  forall (V : FemVal) (s : solid V) (names : list (list bytes)),
    femval_ok V -> s_block_vertex V s = Some names -> List.length names = nb_vertices V s ->
    Z.of_nat (nb_vertices V s) < 2 ^ 32 -> Forall (Forall token) names ->
    exists groups : list (bytes * list bytes),
      write_nodal_sets V s = Ok (lit "NODALSETS" :: flat_map snd groups) /\
      NoDup (map fst groups) /\
      Permutation (flat_map (fun g => map (fun e => (e, fst g)) (flat_map entry_ids (snd g))) groups) (occurrences 1 names) /\
      forall b ls, In (b, ls) groups -> ls <> [] /\ forall l, In l ls -> entry_text l = b.
Proof.
  intros V s names HV Hs Hl Hn Ht. change (2 ^ 32) with two32 in Hn.
  assert (BR : forall a, beq a a = true) by apply beq_refl.
  assert (BS : forall a b, beq a b = beq b a).
  { intros a b. destruct (beq a b) eqn:E; symmetry; [apply beq_eq in E; subst; apply beq_refl|].
    apply beq_neq. intros ->. rewrite beq_refl in E. discriminate. }
  assert (BT : forall a b c, beq a b = true -> beq b c = true -> beq a c = true).
  { intros a b c H1 H2. apply beq_eq in H1, H2. subst. apply beq_refl. }
  assert (Em : vertex_region_map (nb_vertices V s) names = Ok (table_of beq (occurrences 1 names))).
  { unfold vertex_region_map. pose proof (region_fold (nb_vertices V s) names [] []) as R.
    cbn [List.length Z.of_nat app skipn Nat.add] in R. rewrite R by (try reflexivity; lia). reflexivity. }
  pose proof (table_of_inv beq BR BS BT (occurrences 1 names)) as I. set (m := table_of beq (occurrences 1 names)) in *.
  pose proof (siter_perm V HV _ m) as P.
  assert (T : forall k es, In (k, es) (siter V _ m) -> es = holds beq (occurrences 1 names) k /\ es <> [] /\ token k /\ Forall (fun e => 1 <= e < two32) es).
  { intros k es Hin. apply (Permutation_in _ P) in Hin. apply (ti_lists _ _ _ I) in Hin as [E1 E2].
    split; [assumption|]. split; [assumption|]. split.
    - destruct es as [|e es]; [contradiction|]. assert (He : In e (holds beq (occurrences 1 names) k)) by (rewrite <- E1; now left).
      unfold holds in He. apply in_map_iff in He as [[e' x] [_ Hp]]. apply filter_In in Hp as [Hp Hx]. apply beq_eq in Hx. cbn in Hx. subst x.
      apply occurrences_in in Hp as [_ [ns [Hns Hk]]]. apply nth_error_In in Hns. rewrite Forall_forall in Ht. specialize (Ht ns Hns).
      rewrite Forall_forall in Ht. now apply Ht.
    - rewrite E1. apply Forall_forall. intros e He. unfold holds in He. apply in_map_iff in He as [[e' x] [<- Hp]].
      apply filter_In in Hp as [Hp _]. apply occurrences_in in Hp as [Hp _]. cbn [fst]. lia. }
  exists (map (fun e => (fst e, write_chunks (snd e) (fst e) CHUNK_SIZE)) (siter V _ m)).
  assert (M : map fst (map (fun e : bytes * list Z => (fst e, write_chunks (snd e) (fst e) CHUNK_SIZE)) (siter V _ m)) = map fst (siter V _ m)).
  { rewrite map_map. reflexivity. }
  split; [|split; [|split]].
  - unfold write_nodal_sets. rewrite Hs, Em. cbn [bind]. do 2 f_equal. rewrite !flat_map_concat_map, map_map. reflexivity.
  - rewrite M. assert (D : distinct beq (map fst (siter V _ m))).
    { eapply (distinct_perm beq BS); [apply Permutation_map; symmetry; exact P|apply (ti_distinct _ _ _ I)]. }
    clear - D. induction (map fst (siter V _ m)) as [|x r IH]; [constructor|]. inversion D as [|? ? D1 D2]; subst.
    constructor; [|now apply IH]. intros Hx. rewrite Forall_forall in D1. specialize (D1 x Hx). rewrite beq_refl in D1. discriminate.
  - assert (E : forall t, incl t (siter V _ m) ->
      flat_map (fun g : bytes * list bytes => map (fun e => (e, fst g)) (flat_map entry_ids (snd g)))
        (map (fun e => (fst e, write_chunks (snd e) (fst e) CHUNK_SIZE)) t)
      = flat_map (fun k => filter (fun p => beq (snd p) k) (occurrences 1 names)) (map fst t)).
    { induction t as [|[k es] t IH]; intros Hi; [reflexivity|]. cbn [map flat_map fst snd].
      rewrite IH by (intros z Hz; apply Hi; now right). f_equal. destruct (T k es (Hi _ (or_introl eq_refl))) as [E1 [_ [E3 E4]]].
      destruct (chunks_entries es k CHUNK_SIZE E3 E4) as [-> _]. rewrite E1. unfold holds. rewrite map_map.
      rewrite <- (map_id (filter _ _)) at 2. apply map_ext_in. intros [e x] Hin. apply filter_In in Hin as [_ Hx].
      cbn [fst snd] in *. apply beq_eq in Hx. now subst. }
    rewrite (E _ (incl_refl _)). apply partition_perm. intros p Hp.
    destruct (ti_cover _ _ _ I p Hp) as [k [es [Hin Hk]]].
    assert (Hk' : In k (map fst (siter V _ m))).
    { eapply Permutation_in; [apply Permutation_map; symmetry; exact P|]. apply (in_map fst) in Hin. exact Hin. }
    assert (D : distinct beq (map fst (siter V _ m))).
    { eapply (distinct_perm beq BS); [apply Permutation_map; symmetry; exact P|apply (ti_distinct _ _ _ I)]. }
    apply in_split in Hk' as [a [b Hab]]. rewrite Hab in *. exists a, k, b. split; [reflexivity|]. split; [assumption|].
    intros k' Hin'. apply beq_eq in Hk. rewrite Hk.
    assert (D' : distinct beq (k :: a ++ b)) by (eapply (distinct_perm beq BS); [|exact D]; symmetry; apply Permutation_middle).
    inversion D' as [|? ? H1 _]; subst. rewrite Forall_forall in H1. now apply H1.
  - intros b ls Hin. apply in_map_iff in Hin as [[k es] [Ek Hin]]. cbn [fst snd] in Ek. injection Ek as <- <-.
    destruct (T k es Hin) as [_ [E2 [E3 E4]]]. destruct (chunks_entries es k CHUNK_SIZE E3 E4) as [_ [C1 C2]].
    split; [now apply C2|]. intros l Hl'. rewrite Forall_forall in C1. now apply C1.
Qed.
Print Assumptions C58_nodal_sets.
Example C58_instance :
  match write_nodal_sets ExFem ex_solid with
  | Ok ls => leqb beq ls [lit "NODALSETS"; lit "  b1  1-4 "; lit "  b2  2-5 "]
  | _ => false end = true.
Proof. vm_compute. reflexivity. Qed.

(** C59.  Element sets: with the attribute that gives the block of each polyhedron, the writer reads
    names that no longer exist; the sets are never written as they should. *)
Theorem C59_element_sets_refuted :
  forall (V : FemVal) (s : solid V) (names : list bytes),
    s_block_poly V s = Some names -> nb_polyhedra V s <> 0%nat ->
    write_element_sets V s = UB /\ forall t, write_fem V s <> Ok t.
Proof.
  intros V s names Hs Hn. assert (U : write_element_sets V s = UB).
  { unfold write_element_sets. rewrite Hs. destruct (nb_polyhedra V s); [contradiction|reflexivity]. }
  split; [assumption|]. intros t H. unfold write_fem in H.
  apply bind_ok in H as [x1 [_ H]]. apply bind_ok in H as [x2 [_ H]]. apply bind_ok in H as [x3 [_ H]].
  rewrite U in H. discriminate.
Qed.
Print Assumptions C59_element_sets_refuted.
Example C59_instance : is_UB (write_fem ExFem (mkSolid ExFem [(0, 0, 0); (1, 0, 0); (0, 1, 0); (0, 0, 1)]%Q [[0; 1; 2; 3]] [] []
  None (Some [lit "block"]) None None)) = true.
Proof. vm_compute. reflexivity. Qed.

(** C60.  The mesh part of the file: announced counts, one line per tetrahedron with its vertices plus
    one, one line per vertex with its coordinates. *)
Theorem C60_mesh_sections :
  forall (V : FemVal) (s : solid V) (t : bytes),
    Forall (Forall (fun v => 0 <= v < Z.of_nat (nb_vertices V s))) (s_tetras V s) -> Z.of_nat (nb_vertices V s) < 2 ^ 32 ->
    write_fem V s = Ok t ->
    exists nodes coords nodal elements nodal_sets element_sets features,
      write_ref_nodal_dist V s = Ok nodal /\ write_ref_element_dist V s = Ok elements /\
      write_nodal_sets V s = Ok nodal_sets /\ write_element_sets V s = Ok element_sets /\
      write_discrete_features V s = Ok features /\
      t = unlines ([lit "PROBLEM:"; lit "CLASS (v.7.202.18152)"; lit "   0    0    0    3    0    0    8    8    0    0";
          lit "DIMENS"; SP :: show (Z.of_nat (nb_vertices V s)) ++ SP :: show (Z.of_nat (nb_polyhedra V s))
                        ++ lit " 0 1 0 0 0 0 0 1 0 0 0 0 0 0 0 0";
          lit "SCALE"; []; lit "VARNODE"; SP :: show (Z.of_nat (nb_polyhedra V s)) ++ lit " 4 4"]
          ++ nodes ++ [lit "XYZCOOR"] ++ coords
          ++ nodal ++ elements ++ nodal_sets ++ element_sets ++ [lit "GRAVITY"; lit " 0 0 -1"])
          ++ features ++ unlines [lit "END"] /\
      map words nodes = map (fun vs => lit "6" :: map (fun v => show (v + 1)) vs) (s_tetras V s) /\
      coords = map (fun p => SP :: vos V (fst (fst p)) ++ lit ", " ++ vos V (snd (fst p)) ++ lit ", " ++ vos V (snd p)) (s_points V s).
Proof.
  intros V s t Hv Hn H. change (2 ^ 32) with two32 in Hn. unfold write_fem in H.
  apply bind_ok in H as [x1 [E1 H]]. apply bind_ok in H as [x2 [E2 H]]. apply bind_ok in H as [x3 [E3 H]].
  apply bind_ok in H as [x4 [E4 H]]. apply bind_ok in H as [x5 [E5 H]].
  assert (J : forall a b : bytes, Ok a = Ok b -> a = b) by congruence. apply J in H. rewrite <- H.
  exists (map tetra_line (s_tetras V s)), (map (coord_text V) (s_points V s)), x1, x2, x3, x4, x5.
  do 5 (split; [assumption|]). split; [|split].
  - apply (f_equal2 (@app ascii)); [|reflexivity]. apply (f_equal unlines).
    unfold write_dimension, write_var_node, write_node_coordinates. rewrite <- ?app_assoc. reflexivity.
  - rewrite map_map. apply map_ext_in. intros vs Hin. rewrite Forall_forall in Hv. specialize (Hv vs Hin).
    unfold tetra_line. cbn [lit list_ascii_of_string app]. rewrite words_sep by reflexivity.
    transitivity (["6"%char] :: words (flat_map (fun v => show (add32 v 1) ++ add_spaces 1) vs)).
    { apply (words_tok_sep ["6"%char] SP); [split; [discriminate|constructor; [reflexivity|constructor]]|reflexivity]. }
    f_equal. clear Hin. induction Hv as [|v vs Hv1 Hv2 IH]; [reflexivity|]. cbn [flat_map map]. rewrite add32_small by lia.
    unfold add_spaces. cbn [repeat]. rewrite <- app_assoc. cbn [app].
    rewrite words_tok_sep by (try reflexivity; apply show_token; lia). f_equal. exact IH.
  - apply map_ext. intros [[x y] z]. reflexivity.
Qed.
Print Assumptions C60_mesh_sections.
Example C60_instance :
  match write_fem ExFem ex_solid with
  | Ok t => leqb beq (firstn 18 (text_lines t))
      [lit "PROBLEM:"; lit "CLASS (v.7.202.18152)"; lit "   0    0    0    3    0    0    8    8    0    0";
       lit "DIMENS"; lit " 5 2 0 1 0 0 0 0 0 1 0 0 0 0 0 0 0 0"; lit "SCALE"; []; lit "VARNODE"; lit " 2 4 4";
       lit " 6 1 2 3 4 "; lit " 6 2 3 4 5 "; lit "XYZCOOR"; lit " 0.000000, 0.000000, 0.000000";
       lit " 1.000000, 0.000000, 0.000000"; lit " 0.000000, 1.000000, 0.000000"; lit " 0.000000, 0.000000, 1.000000";
       lit " 1.000000, 1.000000, 1.000000"; lit "REF_DIS_I"]
  | _ => false
  end = true.
Proof. vm_compute. reflexivity. Qed.

(** C61.  The X, Y and Z distributions list every vertex exactly once, under its own coordinate; the
    values of the lines are pairwise different. *)
Lemma coord_dist_table V d ps : forall i m,
  coord_dist V d i ps m = fold_left (fun m p => table_add (veqb V) (snd p) (fst p) m) (from i (map (coord V d) ps)) m.
Proof.
  induction ps as [|p ps IH]; intros i m; [reflexivity|]. unfold from. cbn [map List.length rangez combine fold_left fst snd coord_dist].
  rewrite IH. unfold from. now rewrite map_length.
Qed.
Lemma coord_line_words V m v : femval_ok V -> Forall (fun e => 0 <= e < two32 - 1) (table_get (veqb V) v m) ->
  words (coord_line V m v) = vos V v :: map (fun e => show (e + 1)) (table_get (veqb V) v m).
Proof.
  intros HV H. unfold coord_line. cbn [lit list_ascii_of_string app]. rewrite !words_sep by reflexivity.
  rewrite words_tok_sep by (try reflexivity; apply (vos_token V HV)). f_equal. rewrite words_sep by reflexivity.
  induction H as [|e es He Hes IH]; [reflexivity|]. cbn [flat_map map]. rewrite add32_small by lia.
  unfold add_spaces. cbn [repeat]. rewrite <- app_assoc. cbn [app].
  rewrite words_tok_sep by (try reflexivity; apply show_token; lia). f_equal. exact IH.
Qed.
Theorem C61_coordinate_distributions :
  forall (V : FemVal) (s : solid V) (name : bytes) (d : nat),
    femval_ok V -> Z.of_nat (nb_vertices V s) < 2 ^ 32 ->
    exists lines, write_coord_dist V name d s = name :: lines /\
      Permutation (flat_map entry_ids lines) (all_ids (nb_vertices V s)) /\
      exists values, map entry_text lines = map (vos V) values /\
        ForallOrdPairs (fun v w => veqb V v w = false) values /\
        forall k v, nth_error values k = Some v -> forall e, In e (entry_ids (nth k lines [])) ->
          exists p, nth_error (s_points V s) (Z.to_nat (e - 1)) = Some p /\
            veqb V (match d with O => fst (fst p) | S O => snd (fst p) | _ => snd p end) v = true.
Proof.
  intros V s name d HV Hn. change (2 ^ 32) with two32 in Hn. unfold nb_vertices in *.
  set (ps := from 0 (map (coord V d) (s_points V s))).
  assert (Em : coord_dist V d 0 (s_points V s) [] = table_of (veqb V) ps) by apply coord_dist_table.
  pose proof (table_of_inv (veqb V) (veqb_refl V HV) (veqb_sym V HV) (veqb_trans V HV) ps) as I.
  set (m := table_of (veqb V) ps) in *.
  set (keys := vsort V (map fst (viter V _ m))).
  assert (P : Permutation keys (map fst m)).
  { unfold keys. rewrite (vsort_perm V HV). apply Permutation_map. apply (viter_perm V HV). }
  assert (R : forall k, In k keys -> table_get (veqb V) k m = holds (veqb V) ps k /\ Forall (fun e => 0 <= e < two32 - 1) (table_get (veqb V) k m)).
  { intros k Hin. assert (Hm : In k (map fst m)) by (eapply Permutation_in; eauto).
    apply in_map_iff in Hm as [[k' es] [<- Hi]]. cbn [fst].
    rewrite (table_get_in (veqb V) (veqb_refl V HV) (veqb_sym V HV) _ _ _ (ti_distinct _ _ _ I) Hi).
    apply (ti_lists _ _ _ I) in Hi as [E _]. split; [assumption|]. rewrite E. apply Forall_forall. intros e He. unfold holds in He.
    apply in_map_iff in He as [[e' x] [<- Hp]]. apply filter_In in Hp as [Hp _]. unfold ps in Hp. apply in_from in Hp as [Hp _].
    rewrite map_length in Hp. cbn [fst]. lia. }
  assert (W : forall k, In k keys -> entry_text (coord_line V m k) = vos V k /\
    entry_ids (coord_line V m k) = map (fun e => e + 1) (table_get (veqb V) k m)).
  { intros k Hk. destruct (R k Hk) as [_ Hr]. unfold entry_text, entry_ids. rewrite (coord_line_words V m k HV Hr). cbn [hd tl].
    split; [reflexivity|]. clear - Hr. induction Hr as [|e es He Hes IH]; [reflexivity|]. cbn [map flat_map]. rewrite IH.
    assert (E : decode_token (show (e + 1)) = [e + 1]); [|now rewrite E].
    pose proof (decode_range (e + 1) (e + 1) ltac:(lia)) as D. unfold range_text in D. rewrite Z.eqb_refl in D. rewrite D.
    apply interval_one. }
  exists (map (coord_line V m) keys). split; [|split].
  - unfold write_coord_dist. rewrite Em. reflexivity.
  - assert (E : forall ks, incl ks keys -> flat_map entry_ids (map (coord_line V m) ks)
                = map (fun e => e + 1) (flat_map (fun k => table_get (veqb V) k m) ks)).
    { induction ks as [|k ks IH]; intros Hi; [reflexivity|]. cbn [map flat_map]. rewrite map_app, IH by (intros z Hz; apply Hi; now right).
      f_equal. apply W. apply Hi. now left. }
    rewrite (E keys (incl_refl _)).
    rewrite (table_partition (veqb V) (veqb_refl V HV) (veqb_sym V HV) (veqb_trans V HV) ps m keys I P).
    unfold ps. rewrite (proj1 (from_ids 0 _)), map_length, <- rangez_all_ids.
    assert (Sh : forall n z, map (fun e => e + 1) (rangez z n) = rangez (z + 1) n).
    { induction n as [|n IH]; intros z; cbn [rangez map]; [reflexivity|]. now rewrite IH. }
    rewrite Sh. reflexivity.
  - exists keys. split; [|split].
    + rewrite map_map. apply map_ext_in. intros k Hk. now apply W.
    + eapply (distinct_perm (veqb V) (veqb_sym V HV)); [symmetry; exact P|apply (ti_distinct _ _ _ I)].
    + intros k v Hk e He. assert (Hv : In v keys) by (eapply nth_error_In; eauto).
      rewrite (nth_error_nth (map (coord_line V m) keys) k [] (map_nth_error _ _ _ Hk)) in He.
      destruct (W v Hv) as [_ We]. rewrite We in He. apply in_map_iff in He as [e' [<- He]].
      destruct (R v Hv) as [Rv _]. rewrite Rv in He. unfold holds in He. apply in_map_iff in He as [[e2 x] [<- Hp]].
      apply filter_In in Hp as [Hp Hx]. unfold ps in Hp. apply in_from in Hp as [_ Hp]. cbn [fst snd] in *.
      rewrite nth_error_map in Hp. replace (e2 + 1 - 1) with (e2 - 0) by lia.
      destruct (nth_error (s_points V s) (Z.to_nat (e2 - 0))) as [p|]; [|discriminate]. exists p. split; [reflexivity|].
      injection Hp as <-. exact Hx.
Qed.
Print Assumptions C61_coordinate_distributions.
Example C61_instance :
  leqb beq (write_xyz_dist ExFem ex_solid)
   [lit "X"; lit "     0.000000  1 3 4 "; lit "     1.000000  2 5 ";
    lit "Y"; lit "     0.000000  1 2 4 "; lit "     1.000000  3 5 ";
    lit "Z"; lit "     0.000000  1 2 3 "; lit "     1.000000  4 5 "] = true.
Proof. vm_compute. reflexivity. Qed.

(** C62.  The number of nodal distributions announced is the number of distributions written: X, Y, Z
    and one per exported vertex attribute, each starting with its name. *)
Theorem C62_nodal_count :
  forall (V : FemVal) (s : solid V) (lines : list bytes),
    write_ref_nodal_dist V s = Ok lines ->
    exists sections : list (list bytes),
      lines = [lit "REF_DIS_I"; SP :: show (Z.of_nat (List.length sections)) ++ lit ", "
                                ++ show (Z.of_nat (nb_vertices V s)) ++ lit ", 0"] ++ List.concat sections /\
      map (hd []) sections = [lit "X"; lit "Y"; lit "Z"]
        ++ map (f_name V) (filter (fun a => f_generic V a && negb (beq (f_name V a) "points")) (s_vattrs V s)).
Proof.
  intros V s lines H. unfold write_ref_nodal_dist in H. apply bind_ok in H as [blocks [H1 H]].
  assert (J : forall a b : list bytes, Ok a = Ok b -> a = b) by congruence. apply J in H. rewrite <- H. clear J H.
  exists ([write_coord_dist V "X" 0 s; write_coord_dist V "Y" 1 s; write_coord_dist V "Z" 2 s] ++ blocks).
  fold (vertex_exported V) in *. apply mapM_ok in H1. split.
  - assert (L : List.length blocks = List.length (filter (vertex_exported V) (s_vattrs V s))) by (induction H1; cbn; auto).
    rewrite app_length, L. cbn [List.length app List.concat].
    replace (Z.of_nat (3 + List.length (filter (vertex_exported V) (s_vattrs V s))))
      with (3 + Z.of_nat (List.length (filter (vertex_exported V) (s_vattrs V s)))) by lia.
    do 2 f_equal. unfold write_xyz_dist. now rewrite <- !app_assoc.
  - rewrite map_app. f_equal. change (fun a => f_generic V a && negb (beq (f_name V a) "points")) with (vertex_exported V).
    induction H1 as [|a b la lb Hab Hl IH]; [reflexivity|]. cbn [map]. rewrite IH. f_equal.
    unfold write_property in Hab. apply bind_ok in Hab as [m [_ Hab]]. now injection Hab as <-.
Qed.
Print Assumptions C62_nodal_count.
Example C62_instance :
  let s := mkSolid ExFem [(0, 0, 0)]%Q [[0; 0; 0; 0]] [mkFattr ExFem (lit "points") false []; mkFattr ExFem (lit "temp") true [2 # 1]%Q] []
    None None None None in
  match write_ref_nodal_dist ExFem s with
  | Ok ls => leqb beq ls [lit "REF_DIS_I"; lit " 4, 1, 0"; lit "X"; lit "     0.000000  1 "; lit "Y"; lit "     0.000000  1 ";
                          lit "Z"; lit "     0.000000  1 "; lit "temp"; lit "  2.000000  1 "]
  | _ => false end = true.
Proof. vm_compute. reflexivity. Qed.

(** C63.  The section of groups: the announced number of groups, then each group with its name, its
    number of features and a list of ranges that expands to the numbers of its features. *)
Definition group_text (name : bytes) (count : nat) (ranges : bytes) : bytes :=
  unlines [lit "      <group name=" ++ QUOTE :: name ++ QUOTE :: lit " law=" ++ QUOTE :: lit "darcy" ++ QUOTE :: lit " mode="
             ++ QUOTE :: lit "unstructured" ++ QUOTE :: lit ">";
           lit "        <elements count=" ++ QUOTE :: show (Z.of_nat count) ++ QUOTE :: lit ">";
           lit "          <![CDATA[" ++ ranges ++ lit "]]>";
           lit "        </elements>"; lit "      </group>"].
Theorem C63_groups_section :
  forall (V : FemVal) (s : solid V) (f : features V),
    features_ok s -> build_discrete_features V s = Ok f ->
    let gs := f2d V f ++ f1d V f in
    exists ranges : list (list bytes),
      write_groups V f = unlines [lit "    <groups count=" ++ QUOTE :: show (Z.of_nat (List.length gs)) ++ QUOTE :: lit ">"]
        ++ List.concat (map (fun p => group_text (g_name V (fst p)) (List.length (g_features V (fst p))) (separated (snd p))) (combine gs ranges))
        ++ unlines [lit "    </groups>"] /\
      map decode_chunks ranges = map (fun g => map snd (g_features V g)) gs.
Proof.
  intros V s f Hok Hb gs. destruct (C35_features_numbered V s f Hok Hb) as [_ [_ [_ [G _]]]].
  exists (map (fun g => format_range_chunks (g_ids V g) 1500) gs). split.
  - unfold write_groups. unfold nb_groups.
    assert (E : flat_map (write_group V) (f2d V f) ++ flat_map (write_group V) (f1d V f) = flat_map (write_group V) gs)
      by (unfold gs; now rewrite flat_map_app).
    rewrite (app_assoc (flat_map (write_group V) (f2d V f))), E. apply (f_equal2 (@app ascii)).
    + unfold line, quoted, gs. rewrite app_length, Nat.add_comm. cbn [unlines]. repeat (rewrite <- !app_assoc; cbn [app]). reflexivity.
    + apply (f_equal2 (@app ascii)); [|reflexivity]. clear. rewrite flat_map_concat_map. f_equal.
      induction gs as [|g gs IH]; [reflexivity|]. cbn [map combine fst snd].
      rewrite IH. f_equal. unfold write_group, group_text, line, quoted. cbn [unlines].
      repeat (rewrite <- !app_assoc; cbn [app]). reflexivity.
  - rewrite map_map. apply map_ext_in. intros g Hg. rewrite Forall_forall in G. now apply G.
Qed.
Print Assumptions C63_groups_section.
Example C63_instance : features_ok ex_solid /\
  match build_discrete_features ExFem ex_solid with
  | Ok f => beq (write_groups ExFem f)
     (unlines [lit "    <groups count=" ++ quoted "2" ++ lit ">"] ++ group_text "Surface_Feature_LDS" 3 "1-3"
      ++ group_text "Edge_Feature_LDS" 2 "4-5" ++ unlines [lit "    </groups>"])
  | _ => false end = true.
Proof. split; [apply ex_solid_ok|vm_compute; reflexivity]. Qed.

(** C64.  The incidence section: after its two header lines, one line per discrete feature in the
    order of their numbers, with the number of nodes and the nodes. *)
Definition feature_line (nodes : list Z) : bytes :=
  lit "     " ++ show (Z.of_nat (List.length nodes)) ++ flat_map (fun n => lit ", " ++ show n) nodes.
Theorem C64_incidence_lines :
  forall (V : FemVal) (s : solid V) (f : features V),
    features_ok s -> build_discrete_features V s = Ok f ->
    write_incidence V f =
      unlines [lit "    <nop count=" ++ QUOTE :: show (nb_features V f) ++ QUOTE :: lit ">"; lit "      <![CDATA["]
      ++ separated (map (fun p => feature_line (map (fun v => v + 1) (fst p))) (wanted (s_facets V s))) ++ [LF]
      ++ separated (map (fun p => feature_line (map (fun v => v + 1) (fst p))) (wanted (s_edges V s)))
      ++ unlines [lit "]]>"; lit "    </nop>"].
Proof.
  intros V s f Hok Hb. pose proof (build_shape V s f Hok Hb) as [S2 S1]. cbn zeta in *.
  destruct Hok as [Z2 [Z1 [_ Hv]]]. apply Forall_app in Hv as [V2 V1].
  pose proof (kept_wanted (s_facets V s) Z2) as W2. pose proof (kept_wanted (s_edges V s) Z1) as W1.
  assert (G : forall ks id (w : list (list Z * val V)), map fst ks = w -> Forall (fun p => Forall (fun v => 0 <= v < 2 ^ 32 - 1) (fst p)) w ->
    map incidence_line (feats V id ks) = map (fun p => feature_line (map (fun v => v + 1) (fst p))) w).
  { intros ks id w E Hw. transitivity (map (fun n => feature_line n) (map fst (feats V id ks))).
    - rewrite map_map. reflexivity.
    - rewrite feats_nodes, map_map, E. apply map_ext_in. intros p Hp. f_equal. unfold shift_nodes. apply map_ext_in. intros v Hin.
      rewrite Forall_forall in Hw. specialize (Hw p Hp). rewrite Forall_forall in Hw. specialize (Hw v Hin).
      apply add32_small; unfold two32; lia. }
  assert (Q : forall gs name main id ks w, (gs = [] /\ ks = [] \/ gs = [group_of V name main id ks] /\ ks <> []) -> map fst ks = w ->
    Forall (fun p => Forall (fun v => 0 <= v < 2 ^ 32 - 1) (fst p)) w ->
    flat_map (fun g => sep_lines (map incidence_line (g_features V g))) gs
    = separated (map (fun p => feature_line (map (fun v => v + 1) (fst p))) w)).
  { intros gs name main id ks w [[-> K]|[-> K]] E Hw; [rewrite K in E; subst w; reflexivity|]. cbn [flat_map].
    rewrite app_nil_r. cbn [group_of g_features]. rewrite (G ks id w E Hw).
    reflexivity. }
  unfold write_incidence. rewrite (Q _ _ _ _ _ _ S2 W2 V2), (Q _ _ _ _ _ _ S1 W1 V1).
  unfold line, quoted. cbn [unlines]. repeat (rewrite <- !app_assoc; cbn [app]). reflexivity.
Qed.
Print Assumptions C64_incidence_lines.
Example C64_instance : features_ok ex_solid /\
  match build_discrete_features ExFem ex_solid with
  | Ok f => leqb beq (text_lines (write_incidence ExFem f))
     [lit "    <nop count=" ++ quoted "5" ++ lit ">"; lit "      <![CDATA["; lit "     3, 1, 2, 3"; lit "     3, 3, 4, 5"; lit "     3, 1, 2, 4";
      lit "     2, 1, 2"; lit "     2, 3, 4]]>"; lit "    </nop>"]
  | _ => false end = true.
Proof. split; [apply ex_solid_ok|vm_compute; reflexivity]. Qed.
