(** * Properties C100 and C101: when the FEM exports complete. *)
From Coq Require Import ZArith List Lia Bool Ascii String QArith.
From Verif Require Import Base Text TextFacts GocadModel LsoFacts FemModel FemSpec FemFacts FemFeatures PropsFem ExFem BrepFemModel PropsBrepFem.
Import ListNotations.
Local Open Scope string_scope.
Local Open Scope list_scope.
Local Open Scope Z_scope.

(** ** C100: the solid *)
(** Attributes have one value per element, block names are given for every vertex, the counts fit 32 bits. *)
Definition sized_solid {V : FemVal} (s : solid V) : Prop :=
  Z.of_nat (List.length (s_points V s)) < 2 ^ 32 /\ Z.of_nat (List.length (s_tetras V s)) < 2 ^ 32
  /\ (forall a, In a (s_vattrs V s) -> f_generic V a = true -> List.length (f_vals V a) = List.length (s_points V s))
  /\ (forall a, In a (s_pattrs V s) -> f_generic V a = true -> List.length (f_vals V a) = List.length (s_tetras V s))
  /\ (forall names, s_block_vertex V s = Some names -> List.length names = List.length (s_points V s))
  /\ features_ok s.
(** A vertex attribute is exported although there are more polyhedra than vertices. *)
Definition reads_beyond {V : FemVal} (s : solid V) : Prop :=
  (List.length (s_points V s) < List.length (s_tetras V s))%nat
  /\ exists a, In a (s_vattrs V s) /\ f_generic V a = true /\ f_name V a <> lit "points".
(** The polyhedra (there are some) carry block names. *)
Definition names_cells {V : FemVal} (s : solid V) : Prop := s_block_poly V s <> None /\ s_tetras V s <> [].
(** The aperture (conduit area) attribute exists, without any non-negative value. *)
Definition only_negative {V : FemVal} (fi : option (features_in V)) : Prop :=
  exists f vals, fi = Some f /\ fi_main V f = Some vals /\ forall v, In v vals -> vneg V v = true.

Section Total.
Context (V : FemVal).
Implicit Types s : solid V.

Lemma mapM_total {A B} (f : A -> res B) l : (forall a, In a l -> exists b, f a = Ok b) -> exists bs, mapM f l = Ok bs.
Proof.
  induction l as [|a l IH]; intros H; [eexists; reflexivity|]. destruct (H a (or_introl eq_refl)) as [b E]. destruct IH as [bs E']; [intros; apply H; now right|].
  exists (b :: bs). cbn [mapM]. now rewrite E, E'.
Qed.
Lemma mapM_ub {A B} (f : A -> res B) l : (forall a, In a l -> (exists b, f a = Ok b) \/ f a = UB) -> (exists a, In a l /\ f a = UB) -> mapM f l = UB.
Proof.
  induction l as [|a l IH]; intros H [x [X E]]; [destruct X|]. cbn [mapM]. destruct (H a (or_introl eq_refl)) as [[b B']|B']; rewrite B'; cbn [bind]; [|reflexivity].
  destruct X as [->|X]; [congruence|]. rewrite IH; [reflexivity|intros; apply H; now right|eauto].
Qed.
Lemma property_total n (a : fattr V) : (n <= List.length (f_vals V a))%nat -> Z.of_nat n < two32 -> exists ls, write_property V n a = Ok ls.
Proof. intros H L. unfold write_property. rewrite distribution_ok by assumption. eexists. reflexivity. Qed.
Lemma property_either n (a : fattr V) : Z.of_nat n < two32 -> (exists ls, write_property V n a = Ok ls) \/ write_property V n a = UB.
Proof.
  intros L. destruct (le_lt_dec n (List.length (f_vals V a))) as [H|H]; [left; now apply property_total|right]. unfold write_property. now rewrite distribution_ub.
Qed.
Lemma nodal_total s : sized_solid s -> ~ reads_beyond s -> exists ls, write_ref_nodal_dist V s = Ok ls.
Proof.
  intros [_ [L [H _]]] N. unfold write_ref_nodal_dist. destruct (mapM_total (write_property V (nb_polyhedra V s)) (filter (vertex_exported V) (s_vattrs V s))) as [bs ->]; [|eexists; reflexivity].
  intros a Ha. apply filter_In in Ha as [Ha E]. unfold vertex_exported in E. apply andb_true_iff in E as [E1 E2]. apply negb_true_iff, beq_false_lit in E2.
  apply property_total; [|exact L]. rewrite (H a Ha E1). destruct (le_lt_dec (nb_polyhedra V s) (List.length (s_points V s))) as [Q|Q]; [exact Q|].
  exfalso. apply N. split; [exact Q|]. eauto.
Qed.
Lemma nodal_ub s : sized_solid s -> reads_beyond s -> write_ref_nodal_dist V s = UB.
Proof.
  intros [_ [L [H _]]] [N [a [Ha [E1 E2]]]]. unfold write_ref_nodal_dist. rewrite mapM_ub; [reflexivity| |].
  - intros x _. apply property_either. exact L.
  - exists a. split.
    + apply filter_In. split; [assumption|]. unfold vertex_exported. rewrite E1. cbn [andb]. destruct (beq (f_name V a) "points") eqn:B; [|reflexivity]. apply beq_eq in B. contradiction.
    + unfold write_property. rewrite distribution_ub; [reflexivity|]. rewrite (H a Ha E1). exact N.
Qed.
Lemma elem_total s : sized_solid s -> exists ls, write_ref_element_dist V s = Ok ls.
Proof.
  intros [_ [L [_ [H _]]]]. unfold write_ref_element_dist. destruct (mapM_total (write_property V (nb_polyhedra V s)) (filter (poly_exported V) (s_pattrs V s))) as [bs ->]; [|eexists; reflexivity].
  intros a Ha. apply filter_In in Ha as [Ha E]. unfold poly_exported in E. do 3 (apply andb_true_iff in E as [E _]). apply property_total; [|exact L]. rewrite (H a Ha E). apply le_n.
Qed.
Lemma nsets_total s : sized_solid s -> exists ls, write_nodal_sets V s = Ok ls.
Proof.
  intros [L [_ [_ [_ [H _]]]]]. unfold write_nodal_sets. destruct (s_block_vertex V s) as [names|] eqn:E; [|eexists; reflexivity]. specialize (H names eq_refl).
  assert (R := region_fold (List.length (s_points V s)) names [] [] eq_refl). cbn [List.length Z.of_nat] in R. unfold vertex_region_map, nb_vertices.
  rewrite R; [eexists; reflexivity|cbn; lia|rewrite H; exact L].
Qed.

(** *** Features *)
Lemma negative_none fi : fi_sized V fi -> only_negative fi -> kept V (fi_rows V fi) = [].
Proof.
  intros S [f [vals [-> [M N]]]]. assert (K := kept_wanted (Some f) S). cbn [wanted] in K. rewrite M in K.
  destruct (kept V (fi_rows V (Some f))) as [|k ks]; [reflexivity|]. exfalso. cbn [map] in K.
  assert (I : In (fst k) (filter (fun p => negb (vneg V (snd p))) (combine (fi_cells V f) vals))) by (rewrite <- K; now left).
  apply filter_In in I as [I1 I2]. destruct (fst k) as [c v]. apply in_combine_r in I1. cbn [snd] in I2. rewrite (N v I1) in I2. discriminate.
Qed.
Lemma some_kept f vals : fi_sized V (Some f) -> fi_main V f = Some vals -> ~ only_negative (Some f) -> kept V (rows_of V (fi_cells V f) vals (fi_cond V f)) <> [].
Proof.
  intros S M N K. apply N. exists f, vals. split; [reflexivity|]. split; [assumption|]. intros v Hv. destruct (vneg V v) eqn:E; [reflexivity|]. exfalso.
  assert (W := kept_wanted (Some f) S). cbn [wanted fi_rows] in W. rewrite M, K in W. cbn [map] in W.
  cbn [fi_sized] in S. rewrite M in S. destruct S as [S _]. apply In_nth_error in Hv as [i Hi].
  destruct (nth_error (fi_cells V f) i) as [c|] eqn:C; [|apply nth_error_None in C; assert (X : nth_error vals i <> None) by congruence; apply nth_error_Some in X; lia].
  assert (I : In (c, v) (combine (fi_cells V f) vals)).
  { clear -Hi C. revert vals i Hi C. induction (fi_cells V f) as [|x l IH]; intros vals i Hi C; [destruct i; discriminate C|]. destruct vals as [|y vals]; [destruct i; discriminate Hi|].
    destruct i as [|i]; cbn in Hi, C |- *; [left; congruence|right; eauto]. }
  assert (J : In (c, v) (filter (fun p => negb (vneg V (snd p))) (combine (fi_cells V f) vals))) by (apply filter_In; split; [assumption|]; cbn [snd]; now rewrite E).
  rewrite <- W in J. destruct J.
Qed.
Lemma build_opt_cases name main fi id : beq main CONDUCTIVITY = false -> fi_sized V fi -> 0 <= id -> id + nb_cells V fi < two32 ->
  (only_negative fi -> build_opt V name main fi id = Throw ExData) /\ (~ only_negative fi -> exists r, build_opt V name main fi id = Ok r).
Proof.
  intros M S I L. unfold build_opt. destruct fi as [f|]; [|split; [intros [? [? [? _]]]; discriminate|eexists; reflexivity]].
  destruct (fi_main V f) as [vals|] eqn:E; [|split; [intros [f' [? [Q [Q' _]]]]; injection Q as <-; congruence|eexists; reflexivity]].
  assert (B := build_group_ok V name main f vals id M). pose proof S as S'. cbn [fi_sized] in S. rewrite E in S. specialize (B S I L). cbn zeta in B. split.
  - intros N. apply negative_none in N; [|assumption]. cbn [fi_rows] in N. rewrite E in N. rewrite N in B. now rewrite B.
  - intros N. assert (K := some_kept f vals S' E N). destruct (kept V _) as [|k ks]; [contradiction|]. rewrite B. eexists. reflexivity.
Qed.
Lemma nb_cells_nonneg fi : 0 <= nb_cells V fi. Proof. unfold nb_cells. destruct fi; lia. Qed.
Lemma kept_cells fi : fi_sized V fi -> Z.of_nat (List.length (kept V (fi_rows V fi))) <= nb_cells V fi.
Proof.
  unfold fi_rows, nb_cells, fi_sized. destruct fi as [f|]; [|cbn; lia]. destruct (fi_main V f) as [vals|]; [|cbn; lia].
  intros S. pose proof (kept_length V (rows_of V (fi_cells V f) vals (fi_cond V f))). rewrite rows_of_length in H by assumption. lia.
Qed.
Lemma build_cases s : features_ok s ->
  (only_negative (s_facets V s) \/ only_negative (s_edges V s) -> build_discrete_features V s = Throw ExData)
  /\ (~ only_negative (s_facets V s) -> ~ only_negative (s_edges V s) -> exists f, build_discrete_features V s = Ok f).
Proof.
  intros [H1 [H2 [H3 _]]]. change (2 ^ 32) with two32 in H3. assert (P1 := nb_cells_nonneg (s_facets V s)). assert (P2 := nb_cells_nonneg (s_edges V s)).
  assert (A := build_opt_cases (lit "Surface_Feature_LDS") APERTURE (s_facets V s) 1 eq_refl H1 ltac:(lia) ltac:(lia)).
  assert (B : forall gs id, build_opt V (lit "Surface_Feature_LDS") APERTURE (s_facets V s) 1 = Ok (gs, id) ->
    (only_negative (s_edges V s) -> build_opt V (lit "Edge_Feature_LDS") CONDUIT_AREA (s_edges V s) id = Throw ExData)
    /\ (~ only_negative (s_edges V s) -> exists r, build_opt V (lit "Edge_Feature_LDS") CONDUIT_AREA (s_edges V s) id = Ok r)).
  { intros gs id E. apply build_opt_ok in E as [E _]; [|reflexivity|assumption|lia|lia]. pose proof (kept_cells _ H1). apply build_opt_cases; [reflexivity|assumption|lia|lia]. }
  assert (D : only_negative (s_facets V s) \/ ~ only_negative (s_facets V s)).
  { destruct (s_facets V s) as [f|]; [|right; intros [? [? [? _]]]; discriminate]. destruct (fi_main V f) as [vals|] eqn:E; [|right; intros [f' [? [Q [Q' _]]]]; injection Q as <-; congruence].
    destruct (forallb (vneg V) vals) eqn:F; [left|right].
    - exists f, vals. split; [reflexivity|]. split; [assumption|]. now apply forallb_forall.
    - intros [f' [vals' [Q [Q' N]]]]. injection Q as <-. assert (vals' = vals) as -> by congruence. apply forallb_forall in N. congruence. }
  unfold build_discrete_features. split.
  - intros N. destruct D as [D|D]; [now rewrite (proj1 A D)|]. destruct N as [N|N]; [contradiction|]. destruct (proj2 A D) as [[gs id] E]. rewrite E. cbn [bind].
    now rewrite (proj1 (B gs id E) N).
  - intros N1 N2. destruct (proj2 A N1) as [[gs id] E]. rewrite E. cbn [bind]. destruct (proj2 (B gs id E) N2) as [[g1 id'] E']. rewrite E'. eexists. reflexivity.
Qed.
Lemma get_property_at name (ps : list (bytes * table (K := val V))) : forall k i, get_property_from V k name ps = Some i -> exists p, nth_error ps (i - k) = Some p /\ (k <= i)%nat.
Proof.
  induction ps as [|[n t] ps IH]; intros k i H; [discriminate|]. cbn [get_property_from] in H. destruct (beq n name).
  - injection H as <-. rewrite Nat.sub_diag. eexists. split; [reflexivity|lia].
  - apply IH in H as [p [H L]]. exists p. split; [|lia]. replace (i - k)%nat with (S (i - S k)) by lia. exact H.
Qed.
Lemma found_table name gs i : opt_property V name gs = Some i -> exists m, table_at V gs i = Ok m.
Proof.
  unfold opt_property, table_at. destruct gs as [|g gs]; [discriminate|]. intros H. apply get_property_at in H as [p [H _]]. rewrite Nat.sub_0_r in H.
  cbn [front bind]. unfold idx. rewrite H. eexists. reflexivity.
Qed.
Lemma main_found name main id ks gs : ks <> [] -> gs = [group_of V name main id ks] -> opt_property V main gs = Some 0%nat /\ exists m, table_at V gs 0 = Ok m.
Proof.
  intros K ->. unfold opt_property, get_property, group_of. cbn [g_props]. unfold props. destruct ks as [|k ks]; [contradiction|]. cbn [get_property_from].
  rewrite beq_refl. split; [reflexivity|]. eexists. reflexivity.
Qed.
Lemma properties_total s f : features_ok s -> build_discrete_features V s = Ok f -> exists t, write_feature_properties V f = Ok t.
Proof.
  intros H B. apply build_shape in B as [B2 B1]; [|assumption]. cbn zeta in *.
  assert (A : exists t, area_text V f = Ok t).
  { unfold area_text. destruct B2 as [[E2 _]|[E2 K2]]; destruct B1 as [[E1 _]|[E1 K1]].
    - rewrite E2, E1. eexists. reflexivity.
    - destruct (main_found _ _ _ _ _ K1 E1) as [-> [m M]]. rewrite E2. cbn [opt_property]. rewrite M. eexists. reflexivity.
    - destruct (main_found _ _ _ _ _ K2 E2) as [-> [m M]]. rewrite E1. cbn [opt_property]. rewrite M. eexists. reflexivity.
    - destruct (main_found _ _ _ _ _ K1 E1) as [-> [m1 M1]]. destruct (main_found _ _ _ _ _ K2 E2) as [-> [m M]]. rewrite M, M1. eexists. reflexivity. }
  assert (C : exists t, cond_text V f = Ok t).
  { unfold cond_text. destruct (opt_property V CONDUCTIVITY (f2d V f)) as [i|] eqn:E2; destruct (opt_property V CONDUCTIVITY (f1d V f)) as [j|] eqn:E1.
    - apply found_table in E2 as [m ->]. apply found_table in E1 as [m1 ->]. eexists. reflexivity.
    - apply found_table in E2 as [m ->]. eexists. reflexivity.
    - apply found_table in E1 as [m1 ->]. eexists. reflexivity.
    - eexists. reflexivity. }
  destruct A as [a A], C as [c C]. unfold write_feature_properties. rewrite A, C. cbn [bind]. destruct (f2d V f), (f1d V f); eexists; reflexivity.
Qed.
End Total.

(** C100.  How the export of a solid ends: it reads outside an attribute exactly when a vertex attribute is exported with more polyhedra than
    vertices, reads dead names when the cells have block names; otherwise it refuses the solid when the aperture or conduit area is nowhere
    non-negative, and writes a file in all the other cases. *)
Theorem C100_outcome : forall (V : FemVal) (s : solid V), sized_solid s ->
  (reads_beyond s \/ names_cells s -> write_fem V s = UB)
  /\ (~ reads_beyond s -> ~ names_cells s -> only_negative (s_facets V s) \/ only_negative (s_edges V s) -> write_fem V s = Throw ExData)
  /\ (~ reads_beyond s -> ~ names_cells s -> ~ only_negative (s_facets V s) -> ~ only_negative (s_edges V s) -> exists t, write_fem V s = Ok t).
Proof.
  intros V s H. pose proof H as [_ [_ [_ [_ [_ F]]]]]. destruct (elem_total V s H) as [el EL]. destruct (nsets_total V s H) as [ns NS]. destruct (build_cases V s F) as [T K].
  assert (N : names_cells s \/ ~ names_cells s).
  { unfold names_cells. destruct (s_block_poly V s); [|right; intros [Q _]; contradiction]. destruct (s_tetras V s); [right; intros [_ Q]; contradiction|left; split; discriminate]. }
  assert (EN : names_cells s -> write_element_sets V s = UB).
  { intros [Q1 Q2]. unfold write_element_sets, nb_polyhedra. destruct (s_block_poly V s); [|contradiction]. destruct (s_tetras V s); [contradiction|reflexivity]. }
  assert (EO : ~ names_cells s -> exists es, write_element_sets V s = Ok es).
  { intros Q. unfold write_element_sets, nb_polyhedra. unfold names_cells in Q. destruct (s_block_poly V s); [|eexists; reflexivity]. destruct (s_tetras V s); [eexists; reflexivity|].
    exfalso. apply Q. split; discriminate. }
  assert (R : reads_beyond s \/ ~ reads_beyond s).
  { unfold reads_beyond. destruct (existsb (vertex_exported V) (s_vattrs V s)) eqn:E.
    - apply existsb_exists in E as [a [Ha E]]. unfold vertex_exported in E. apply andb_true_iff in E as [E1 E2]. apply negb_true_iff, beq_false_lit in E2.
      destruct (le_lt_dec (List.length (s_tetras V s)) (List.length (s_points V s))); [right; intros [Q _]; lia|left; split; [assumption|eauto]].
    - right. intros [_ [a [Ha [E1 E2]]]]. assert (X : existsb (vertex_exported V) (s_vattrs V s) = true); [|congruence]. apply existsb_exists. exists a. split; [assumption|].
      unfold vertex_exported. rewrite E1. destruct (beq (f_name V a) "points") eqn:B; [apply beq_eq in B; contradiction|reflexivity]. }
  unfold write_fem. split; [|split].
  - intros Q. destruct R as [R|R]; [now rewrite (nodal_ub V s H R)|]. destruct Q as [Q|Q]; [contradiction|]. destruct (nodal_total V s H R) as [nd ->].
    rewrite EL, NS, (EN Q). reflexivity.
  - intros Q1 Q2 Q3. destruct (nodal_total V s H Q1) as [nd ->]. rewrite EL, NS. destruct (EO Q2) as [es ->]. cbn [bind]. unfold write_discrete_features. now rewrite (T Q3).
  - intros Q1 Q2 Q3 Q4. destruct (nodal_total V s H Q1) as [nd ->]. rewrite EL, NS. destruct (EO Q2) as [es ->]. destruct (K Q3 Q4) as [f Hf]. cbn [bind].
    unfold write_discrete_features. rewrite Hf. cbn [bind]. destruct (properties_total V s f F Hf) as [p Hp]. destruct (nb_groups V f); cbn [bind]; [eexists; reflexivity|].
    rewrite Hp. eexists. reflexivity.
Qed.
Print Assumptions C100_outcome.
(** A solid with 5 vertices and 2 cells, one vertex attribute and two conductive facets, is written; with an aperture that is
    nowhere positive or zero it is refused; with more cells than vertices the vertex attribute is read outside. *)
Definition ex_whole (main : list Q) (tetras : list (list Z)) : solid ExFem :=
  mkSolid ExFem [(0, 0, 0); (1, 0, 0); (0, 1, 0); (0, 0, 1); (1, 1, 1)]%Q tetras
    [mkFattr ExFem (lit "head") true [1; 2; 3; 4; 5]%Q] [mkFattr ExFem (lit "poro") true (repeat (1 # 2)%Q (List.length tetras))]
    (Some [[lit "b1"]; [lit "b1"; lit "b2"]; [lit "b1"]; [lit "b1"]; [lit "b2"]]) None
    (Some (mkFeatIn ExFem [[0; 1; 2]; [1; 2; 3]] (Some main) (Some [3; 4]%Q))) None.
Lemma ex_whole_sized main tetras : List.length main = 2%nat -> Z.of_nat (List.length tetras) < 2 ^ 32 -> sized_solid (ex_whole main tetras).
Proof.
  intros H L. split; [reflexivity|]. split; [exact L|]. split; [intros a [<-|[]] _; reflexivity|]. split; [intros a [<-|[]] _; apply repeat_length|].
  split; [intros names E; injection E as <-; reflexivity|]. destruct main as [|a [|b [|c r]]]; try discriminate. split; [split; reflexivity|]. split; [exact I|]. split; [reflexivity|].
  apply Forall_forall. intros p Hp. apply in_app_iff in Hp as [Hp|[]]. cbn [wanted ex_whole s_facets fi_main fi_cells combine] in Hp. apply filter_In in Hp as [Hp _].
  destruct Hp as [<-|[<-|[]]]; cbn [fst]; repeat (constructor; [lia|]); constructor.
Qed.
Definition is_throw {A} (r : res A) : bool := match r with Throw ExData => true | _ => false end.
Definition is_ok {A} (r : res A) : bool := match r with Ok _ => true | _ => false end.
Example C100_example : sized_solid (ex_whole [1%Q; (-1)%Q] [[0; 1; 2; 3]; [1; 2; 3; 4]])
  /\ is_ok (write_fem ExFem (ex_whole [1%Q; (-1)%Q] [[0; 1; 2; 3]; [1; 2; 3; 4]])) = true
  /\ is_throw (write_fem ExFem (ex_whole [(-2)%Q; (-1)%Q] [[0; 1; 2; 3]; [1; 2; 3; 4]])) = true
  /\ reads_beyond (ex_whole [1%Q; (-1)%Q] (repeat [0; 1; 2; 3] 6)).
Proof.
  split; [apply ex_whole_sized; reflexivity|]. split; [vm_compute; reflexivity|]. split; [vm_compute; reflexivity|]. split; [cbn; lia|].
  exists (mkFattr ExFem (lit "head") true [1; 2; 3; 4; 5]%Q). split; [now left|]. split; [reflexivity|discriminate].
Qed.

(** ** C101: the BRep *)
Definition ok_or_ub {A} (r : res A) : Prop := (exists a, r = Ok a) \/ r = UB.
Lemma ok_or_ub_bind {A B} (r : res A) (f : A -> res B) : ok_or_ub r -> (forall a, ok_or_ub (f a)) -> ok_or_ub (bind r f).
Proof. intros [[a ->]| ->] H; [apply H|now right]. Qed.
Lemma ok_or_ub_ok {A} (a : A) : ok_or_ub (Ok a). Proof. left. eauto. Qed.
Lemma ok_or_ub_idxz {A} (l : list A) i : ok_or_ub (idxz l i). Proof. unfold idxz. destruct (nthz l i); [left; eauto|now right]. Qed.
Lemma ok_or_ub_setz {A} (l : list A) i v : ok_or_ub (setz l i v). Proof. unfold setz. destruct (_ && _); [left; eauto|now right]. Qed.
Lemma ok_or_ub_front {A} (l : list A) : ok_or_ub (front l). Proof. destruct l as [|a l]; [now right|left; exists a; reflexivity]. Qed.
Lemma ok_or_ub_foldM {A S} (f : S -> A -> res S) l : (forall s a, ok_or_ub (f s a)) -> forall s, ok_or_ub (foldM f l s).
Proof. intros H. induction l as [|a l IH]; intros s; [apply ok_or_ub_ok|]. cbn [foldM]. apply ok_or_ub_bind; [apply H|exact IH]. Qed.
Lemma ok_or_ub_mapM {A B} (f : A -> res B) l : (forall a, ok_or_ub (f a)) -> ok_or_ub (mapM f l).
Proof. intros H. induction l as [|a l IH]; [apply ok_or_ub_ok|]. cbn [mapM]. apply ok_or_ub_bind; [apply H|]. intros b. apply ok_or_ub_bind; [exact IH|]. intros bs. apply ok_or_ub_ok. Qed.
Lemma foldM_total {A S} (f : S -> A -> res S) (P : S -> Prop) l : (forall s a, In a l -> P s -> exists s', f s a = Ok s' /\ P s') ->
  forall s, P s -> exists s', foldM f l s = Ok s' /\ P s'.
Proof.
  induction l as [|a l IH]; intros H s Hs; [exists s; split; [reflexivity|assumption]|]. destruct (H s a (or_introl eq_refl) Hs) as [s1 [E P1]]. cbn [foldM]. rewrite E. cbn [bind].
  apply IH; [|assumption]. intros; apply H; [now right|assumption].
Qed.
Lemma foldM_stuck {A S} (f : S -> A -> res S) l x : In x l -> (forall s a, ok_or_ub (f s a)) -> (forall s, f s x = UB) -> forall s, foldM f l s = UB.
Proof.
  induction l as [|a l IH]; intros X H U s; [destruct X|]. cbn [foldM]. destruct X as [->|X]; [now rewrite U|]. destruct (H s a) as [[s1 ->]| ->]; [|reflexivity]. cbn [bind]. now apply IH.
Qed.

Lemma nthz_total {A} (l : list A) i : 0 <= i < lenz l -> exists x, nthz l i = Some x.
Proof.
  unfold nthz, lenz. intros H. replace ((0 <=? i) && (i <? Z.of_nat (List.length l))) with true by (symmetry; apply andb_true_iff; split; [apply Z.leb_le|apply Z.ltb_lt]; lia).
  destruct (nth_error l (Z.to_nat i)) as [x|] eqn:E; [exists x; reflexivity|]. apply nth_error_None in E. lia.
Qed.
Section Brep.
Context (V : FemVal) (minus_one : val V).
(** Cells and vertices of the block are in the solid; attributes have one value per cell. *)
Definition sized_block (nbp nbv : nat) (b : bblock V) : Prop :=
  Forall (fun ps => ps <> [] /\ Forall (fun p => 0 <= p < Z.of_nat nbp) ps) (l_images V b)
  /\ Forall (fun v => 0 <= v < Z.of_nat nbv) (l_vertices V b)
  /\ Forall (fun a => List.length (pa_vals V a) = List.length (l_images V b)) (l_attrs V b).
Definition sized_brep (s0 : solid V) (facets edges : list (list Z)) (b : brep V) : Prop :=
  Forall (sized_block (List.length (s_tetras V s0)) (List.length (s_points V s0))) (r_blocks V b)
  /\ Forall (well_formed V (List.length facets)) (r_surfaces V b) /\ Forall (well_formed V (List.length edges)) (r_lines V b)
  /\ Forall (fun a => List.length (f_vals V a) = List.length (s_tetras V s0)) (s_pattrs V s0).
(** A block without cells has an attribute to transfer. *)
Definition empty_valued (b : brep V) : Prop :=
  exists k a, In k (r_blocks V b) /\ l_images V k = [] /\ In a (l_attrs V k) /\ pa_transferable V a = true /\ pa_number V a = true.

(** An attribute of numbers to transfer bears the name that the export gives to the labels of the cells. *)
Definition label_taken (s0 : solid V) (b : brep V) : Prop :=
  (exists a, In a (s_pattrs V s0) /\ f_name V a = lit "Block_ID_polyhedron")
  \/ exists k a, In k (r_blocks V b) /\ In a (l_attrs V k) /\ pa_transferable V a = true /\ pa_number V a = true /\ pa_name V a = lit "Block_ID_polyhedron".

Definition bears (n : bytes) (l : list (fattr V)) : Prop := exists a, In a l /\ f_name V a = n.
Lemma find_bears n l : find_fattr V n l <> None <-> bears n l.
Proof.
  unfold find_fattr, bears. split.
  - intros H. destruct (find _ l) as [a|] eqn:E; [|contradiction]. apply find_some in E as [E1 E2]. exists a. split; [assumption|now apply beq_eq].
  - intros [a [H1 H2]] N. pose proof (find_none _ _ N a H1) as Q. cbn beta in Q. rewrite H2, beq_refl in Q. discriminate Q.
Qed.
Lemma set_bears n i v l : forall l' m, set_fattr V n i v l = Ok l' -> (bears m l' <-> bears m l).
Proof.
  assert (C : forall m a b (l l' : list (fattr V)), f_name V a = f_name V b -> (bears m l' <-> bears m l) -> (bears m (a :: l') <-> bears m (b :: l))).
  { intros m a b r r' N [Q1 Q2]. split; intros [x [[<-|Hx] E]].
    - exists b. split; [now left|congruence].
    - destruct Q1 as [y [Y1 Y2]]; [now exists x|]. exists y. split; [now right|assumption].
    - exists a. split; [now left|congruence].
    - destruct Q2 as [y [Y1 Y2]]; [now exists x|]. exists y. split; [now right|assumption]. }
  induction l as [|a l IH]; intros l' m H; cbn [set_fattr] in H; [injection H as <-; reflexivity|].
  destruct (beq (f_name V a) n); apply bind_ok in H as [r [H1 H]]; injection H as <-; apply C; [reflexivity|reflexivity|reflexivity|now apply IH].
Qed.
Lemma create_bears n v nb l m : bears m (create_fattr V n v nb l) <-> bears m l \/ m = n.
Proof.
  unfold create_fattr. destruct (find_fattr V n l) as [a|] eqn:E.
  - assert (B : bears n l) by (apply find_bears; rewrite E; discriminate). split; [now left|]. intros [Q| ->]; assumption.
  - split.
    + intros [x [Hx N]]. apply in_app_iff in Hx as [Hx|[<-|[]]]; [left; now exists x|right; now symmetry].
    + intros [[x [Hx N]]| ->]; [exists x; split; [apply in_app_iff; now left|assumption]|]. eexists. split; [apply in_app_iff; right; now left|reflexivity].
Qed.
Lemma foldM_iff {A B} (f : A -> B -> res A) (P : A -> Prop) (Q : B -> Prop) : (forall s x s', f s x = Ok s' -> (P s' <-> P s \/ Q x)) ->
  forall xs s s', foldM f xs s = Ok s' -> (P s' <-> P s \/ exists x, In x xs /\ Q x).
Proof.
  intros H. induction xs as [|x xs IH]; intros s s' E; cbn [foldM] in E.
  - injection E as <-. split; [now left|]. intros [G|[x [[] _]]]. exact G.
  - apply bind_ok in E as [s1 [E1 E]]. apply H in E1. apply IH in E. rewrite E, E1. split.
    + intros [[G|G]|[y [G1 G2]]]; [now left|right; exists x; split; [now left|assumption]|right; exists y; split; [now right|assumption]].
    + intros [G|[y [[<-|G1] G2]]]; [left; now left|left; now right|right; now exists y].
Qed.
Lemma copied_bears nb bs l l' m : copy_attrs V nb bs l = Ok l' ->
  (bears m l' <-> bears m l \/ exists k, In k bs /\ exists a, In a (l_attrs V k) /\ pa_transferable V a = true /\ pa_number V a = true /\ pa_name V a = m).
Proof.
  unfold copy_attrs. revert l l'. apply foldM_iff. intros s k s'. revert s s'. apply foldM_iff. intros s a s' E. unfold copy_attr in E.
  destruct (pa_transferable V a) eqn:T; cbn [negb orb] in E.
  2:{ injection E as <-. split; [now left|]. intros [G|[G _]]; [exact G|discriminate G]. }
  destruct (pa_number V a) eqn:N; cbn [negb] in E.
  2:{ injection E as <-. split; [now left|]. intros [G|[_ [G _]]]; [exact G|discriminate G]. }
  apply bind_ok in E as [v0 [_ E]].
  assert (F : forall xs s s', foldM (fun l (e : Z * list Z) => do p <- front (snd e); do v <- idxz (pa_vals V a) (fst e); set_fattr V (pa_name V a) p v l) xs s = Ok s' -> (bears m s' <-> bears m s)).
  { clear. induction xs as [|x xs IH]; intros s s' E; cbn [foldM] in E; [injection E as <-; reflexivity|]. apply bind_ok in E as [s1 [E1 E]]. apply IH in E. rewrite E.
    apply bind_ok in E1 as [p [_ E1]]. apply bind_ok in E1 as [v [_ E1]]. exact (set_bears _ _ _ _ _ m E1). }
  apply F in E. rewrite E, create_bears. split; (intros [G|G]; [now left|right]); [auto|symmetry; now apply G].
Qed.
Lemma free_iff nb b s0 pa : copy_attrs V nb (r_blocks V b) (s_pattrs V s0) = Ok pa ->
  (label_taken s0 b -> block_id_free V pa = Throw ExData) /\ (~ label_taken s0 b -> block_id_free V pa = Ok tt).
Proof.
  intros H. apply (copied_bears _ _ _ _ (lit "Block_ID_polyhedron")) in H. unfold block_id_free. pose proof (find_bears (lit "Block_ID_polyhedron") pa) as F.
  assert (L : bears (lit "Block_ID_polyhedron") pa <-> label_taken s0 b).
  { rewrite H. split; (intros [G|G]; [now left|right]); [destruct G as [k [G1 [a G2]]]; exists k, a; tauto|destruct G as [k [a [G1 G2]]]; exists k; split; [assumption|]; now exists a]. }
  destruct (find_fattr V _ pa); split; intros T; try reflexivity; exfalso.
  - apply T, L, F. discriminate.
  - apply L, F in T. now apply T.
Qed.

Lemma set_total nb n i v (l : list (fattr V)) : sized_attrs V nb l -> 0 <= i < Z.of_nat nb -> exists l', set_fattr V n i v l = Ok l' /\ sized_attrs V nb l'.
Proof.
  intros S I. assert (T : exists l', set_fattr V n i v l = Ok l').
  { induction l as [|a l IH]; [eexists; reflexivity|]. apply Forall_inv in S as Sa. apply Forall_inv_tail in S. cbn [set_fattr]. destruct (beq (f_name V a) n).
    - rewrite setz_in_range by (unfold lenz; lia). eexists. reflexivity.
    - destruct (IH S) as [l' ->]. eexists. reflexivity. }
  destruct T as [l' T]. exists l'. split; [assumption|]. now apply (sized_set V nb n i v l).
Qed.
Lemma copy_attr_total nbp nbv (b : bblock V) a l : sized_block nbp nbv b -> In a (l_attrs V b) -> l_images V b <> [] \/ pa_transferable V a = false \/ pa_number V a = false ->
  sized_attrs V nbp l -> exists l', copy_attr V nbp b l a = Ok l' /\ sized_attrs V nbp l'.
Proof.
  intros [H1 [_ H3]] Ha N S. unfold copy_attr. destruct (negb (pa_transferable V a) || negb (pa_number V a)) eqn:E; [eexists; split; [reflexivity|assumption]|].
  apply orb_false_iff in E as [E1 E2]. apply negb_false_iff in E1, E2. destruct N as [N|[N|N]]; [|congruence|congruence].
  rewrite Forall_forall in H3. specialize (H3 a Ha). unfold idxz at 1. assert (Z0 : exists v0, nthz (pa_vals V a) 0 = Some v0).
  { destruct (l_images V b); [contradiction|]. destruct (pa_vals V a) as [|v0 r]; [discriminate|]. exists v0. reflexivity. }
  destruct Z0 as [v0 ->]. cbn [bind]. apply (foldM_total _ (sized_attrs V nbp)); [|now apply sized_create].
  intros s [e ps] He Hs. apply enumerate_in in He. cbn [fst snd]. rewrite Forall_forall in H1. pose proof (nthz_in _ _ _ He) as Hin. destruct (H1 ps Hin) as [Q1 Q2].
  destruct ps as [|p ps]; [contradiction|]. cbn [front bind]. assert (Hv : exists v, nthz (pa_vals V a) e = Some v).
  { apply nthz_total. apply nthz_range in He. unfold lenz in *. lia. }
  destruct Hv as [v Hv]. unfold idxz. rewrite Hv. cbn [bind]. apply set_total; [assumption|]. now apply Forall_inv in Q2.
Qed.
Lemma set_either n i v (l : list (fattr V)) : ok_or_ub (set_fattr V n i v l).
Proof.
  induction l as [|a l IH]; [apply ok_or_ub_ok|]. cbn [set_fattr]. destruct (beq _ _); (apply ok_or_ub_bind; [apply ok_or_ub_setz || exact IH|intros; apply ok_or_ub_ok]).
Qed.
Lemma copy_attr_either nb (b : bblock V) l a : ok_or_ub (copy_attr V nb b l a).
Proof.
  unfold copy_attr. destruct (_ || _); [apply ok_or_ub_ok|]. apply ok_or_ub_bind; [apply ok_or_ub_idxz|]. intros v0. apply ok_or_ub_foldM. intros s e.
  apply ok_or_ub_bind; [apply ok_or_ub_front|]. intros p. apply ok_or_ub_bind; [apply ok_or_ub_idxz|]. intros v. apply set_either.
Qed.
Lemma polyhedra_total nb nbv (bs : list (bblock V)) : Forall (sized_block nb nbv) bs -> exists names, paint_polyhedra V nb bs = Ok names.
Proof.
  intros H. unfold paint_polyhedra. edestruct (foldM_total (fun names b => foldM (fun names ps => foldM (fun names p => match l_name V b with Some n => setz names p n | None => Ok names end) ps names)
                          (l_images V b) names) (fun l : list bytes => List.length l = nb) bs) as [names [E _]]; [|apply repeat_length|exists names; exact E].
  intros s b Hb Hs. rewrite Forall_forall in H. destruct (H b Hb) as [H1 _]. apply (foldM_total _ (fun l : list bytes => List.length l = nb)); [|assumption].
  intros s1 ps Hps Hs1. rewrite Forall_forall in H1. destruct (H1 ps Hps) as [_ H2]. apply (foldM_total _ (fun l : list bytes => List.length l = nb)); [|assumption].
  intros s2 p Hp Hs2. rewrite Forall_forall in H2. specialize (H2 p Hp). destruct (l_name V b) as [n|]; [|eauto].
  rewrite setz_in_range by (unfold lenz; lia). eexists. split; [reflexivity|]. now rewrite upd_length.
Qed.
Lemma vertices_total nbp nb (bs : list (bblock V)) : Forall (sized_block nbp nb) bs -> exists names, paint_vertices V nb bs = Ok names.
Proof.
  intros H. unfold paint_vertices. edestruct (foldM_total (fun names b => foldM (fun names v => do l <- idxz names v; setz names v (l ++ [block_label V b])) (l_vertices V b) names)
    (fun l : list (list bytes) => List.length l = nb) bs) as [names [E _]]; [|apply repeat_length|exists names; exact E].
  intros s b Hb Hs. rewrite Forall_forall in H. destruct (H b Hb) as [_ [H1 _]]. apply (foldM_total _ (fun l : list (list bytes) => List.length l = nb)); [|assumption].
  intros s1 v Hv Hs1. rewrite Forall_forall in H1. specialize (H1 v Hv). unfold idxz. assert (X : exists l, nthz s1 v = Some l).
  { apply nthz_total. unfold lenz. lia. }
  destruct X as [l ->]. cbn [bind]. rewrite setz_in_range by (unfold lenz; lia). eexists. split; [reflexivity|]. now rewrite upd_length.
Qed.
Lemma distribution_either n (a : fattr V) : ok_or_ub (write_property V n a).
Proof. unfold write_property. apply ok_or_ub_bind; [apply ok_or_ub_foldM; intros; apply ok_or_ub_bind; [apply ok_or_ub_idxz|intros; apply ok_or_ub_ok]|intros; apply ok_or_ub_ok]. Qed.
Lemma named_ub (s : solid V) : names_cells s -> write_fem V s = UB.
Proof.
  intros [Q1 Q2]. unfold write_fem. assert (A : ok_or_ub (write_ref_nodal_dist V s)).
  { unfold write_ref_nodal_dist. apply ok_or_ub_bind; [apply ok_or_ub_mapM; intros; apply distribution_either|intros; apply ok_or_ub_ok]. }
  assert (B : ok_or_ub (write_ref_element_dist V s)).
  { unfold write_ref_element_dist. apply ok_or_ub_bind; [apply ok_or_ub_mapM; intros; apply distribution_either|intros; apply ok_or_ub_ok]. }
  assert (C : ok_or_ub (write_nodal_sets V s)).
  { unfold write_nodal_sets. destruct (s_block_vertex V s); [|apply ok_or_ub_ok]. apply ok_or_ub_bind; [|intros; apply ok_or_ub_ok].
    unfold vertex_region_map. apply ok_or_ub_foldM. intros. apply ok_or_ub_bind; [apply ok_or_ub_idxz|intros; apply ok_or_ub_ok]. }
  assert (D : write_element_sets V s = UB).
  { unfold write_element_sets, nb_polyhedra. destruct (s_block_poly V s); [|contradiction]. destruct (s_tetras V s); [contradiction|reflexivity]. }
  destruct A as [[a ->]| ->]; [|reflexivity]. destruct B as [[b ->]| ->]; [|reflexivity]. destruct C as [[c ->]| ->]; [|reflexivity]. now rewrite D.
Qed.
End Brep.

(** C101.  The solid to export is prepared exactly when no block without cells has an attribute to transfer (whose value of cell 0 is read)
    and no attribute to transfer is called Block_ID_polyhedron; its export is then undefined as soon as it has one cell: the names of the blocks of the cells are always set. *)
Theorem C101_preparation : forall V minus_one s0 facets edges (b : brep V), sized_brep V s0 facets edges b ->
  (empty_valued V b -> fem_solid V minus_one s0 facets edges b = UB) /\ (~ empty_valued V b -> label_taken V s0 b -> fem_solid V minus_one s0 facets edges b = Throw ExData)
  /\ (~ empty_valued V b -> ~ label_taken V s0 b -> exists s, fem_solid V minus_one s0 facets edges b = Ok s).
Proof.
  intros V m1 s0 facets edges b [H1 [H2 [H3 H4]]]. unfold fem_solid. split.
  - intros [k [a [Hk [E [Ha [T N]]]]]]. replace (copy_attrs V (nb_polyhedra V s0) (r_blocks V b) (s_pattrs V s0)) with (@UB (list (fattr V))); [reflexivity|symmetry].
    unfold copy_attrs. apply (foldM_stuck _ _ k); [assumption|intros; apply ok_or_ub_foldM; intros; apply copy_attr_either|]. intros s. apply (foldM_stuck _ _ a); [assumption|intros; apply copy_attr_either|].
    intros l. unfold copy_attr. rewrite T, N. cbn [negb orb]. rewrite Forall_forall in H1. destruct (H1 k Hk) as [_ [_ L]]. rewrite Forall_forall in L. specialize (L a Ha). rewrite E in L.
    destruct (pa_vals V a); [reflexivity|discriminate L].
  - assert (G : ~ empty_valued V b -> exists pa, copy_attrs V (nb_polyhedra V s0) (r_blocks V b) (s_pattrs V s0) = Ok pa).
    { intros N. destruct (foldM_total (fun l b => foldM (copy_attr V (nb_polyhedra V s0) b) (l_attrs V b) l) (sized_attrs V (nb_polyhedra V s0)) (r_blocks V b)) with (s := s_pattrs V s0) as [pa [E _]]; [|exact H4|now exists pa].
      intros l k Hk Hl. rewrite Forall_forall in H1. apply (foldM_total _ (sized_attrs V (nb_polyhedra V s0))); [|assumption]. intros l1 a Ha Hl1.
      apply (copy_attr_total V _ (List.length (s_points V s0))); [apply H1; assumption|assumption| |assumption].
      destruct (pa_transferable V a) eqn:T; [|auto]. destruct (pa_number V a) eqn:Nu; [|auto]. left. intros I. apply N. exists k, a. auto. }
    split; intros N LT; destruct (G N) as [pa E]; rewrite E; cbn [bind]; destruct (free_iff V _ _ _ _ E) as [F1 F2]; [now rewrite F1|]. rewrite F2 by assumption. cbn [bind]. destruct (polyhedra_total V (nb_polyhedra V s0) _ _ H1) as [po ->]. destruct (vertices_total V _ (nb_vertices V s0) _ H1) as [ve ->]. cbn [bind].
    destruct (C53_painted V m1 _ APERTURE _ H2) as [fp [-> _]]. destruct (C53_painted V m1 _ CONDUIT_AREA _ H3) as [ep [-> _]]. eexists. reflexivity.
Qed.
Print Assumptions C101_preparation.
Theorem C101_export_refuted : forall V minus_one s0 facets edges (b : brep V), sized_brep V s0 facets edges b -> ~ label_taken V s0 b -> s_tetras V s0 <> [] ->
  write_brep_fem V minus_one s0 facets edges b = UB.
Proof.
  intros V m1 s0 facets edges b H L T. unfold write_brep_fem. assert (D : ok_or_ub (fem_solid V m1 s0 facets edges b)).
  { unfold fem_solid. destruct H as [H1 [H2 [H3 H4]]]. assert (X : ok_or_ub (copy_attrs V (nb_polyhedra V s0) (r_blocks V b) (s_pattrs V s0))) by (apply ok_or_ub_foldM; intros; apply ok_or_ub_foldM; intros; apply copy_attr_either).
    destruct X as [[pa X]|X]; rewrite X; [|right; reflexivity]. cbn [bind]. rewrite (proj2 (free_iff V _ _ _ _ X)) by assumption. cbn [bind].
    destruct (polyhedra_total V (nb_polyhedra V s0) _ _ H1) as [po ->]. destruct (vertices_total V _ (nb_vertices V s0) _ H1) as [ve ->]. cbn [bind].
    destruct (C53_painted V m1 _ APERTURE _ H2) as [fp [-> _]]. destruct (C53_painted V m1 _ CONDUIT_AREA _ H3) as [ep [-> _]]. apply ok_or_ub_ok. }
  destruct D as [[s E]| ->]; [|reflexivity]. rewrite E. cbn [bind]. apply named_ub. unfold fem_solid in E. do 6 (apply bind_ok in E as [? [_ E]]). injection E as <-. split; [discriminate|exact T].
Qed.
Print Assumptions C101_export_refuted.
Definition ex_tet : solid ExFem := mkSolid ExFem (repeat (0, 0, 0)%Q 6) (repeat [0; 1; 2; 3] 3) [] [] None None None None.
Definition ex_brep_fem : brep ExFem := mkBrep ExFem ex_cs [] ex_blocks.
Lemma rng f n : (0 <=? f) && (f <? n) = true -> 0 <= f < n.
Proof. intros H. apply andb_true_iff in H as [H1 H2]. apply Z.leb_le in H1. apply Z.ltb_lt in H2. lia. Qed.
Lemma ex_brep_sized : sized_brep ExFem ex_tet (repeat [0; 1; 2] 5) [] ex_brep_fem.
Proof.
  split; [|split; [exact (proj2 C53_example)|split; constructor]]. cbn [r_blocks ex_brep_fem ex_blocks ex_tet s_tetras s_points repeat List.length].
  repeat (constructor; [|try constructor]); repeat split; cbn [l_images l_vertices l_attrs pa_vals List.length];
    repeat (constructor; [try (split; [discriminate|]); try reflexivity; try (apply rng; reflexivity)|]); repeat constructor; try (apply rng; reflexivity); discriminate.
Qed.
Example C101_example : ~ empty_valued ExFem ex_brep_fem /\ is_ok (fem_solid ExFem (-1)%Q ex_tet (repeat [0; 1; 2] 5) [] ex_brep_fem) = true.
Proof.
  split; [|vm_compute; reflexivity]. intros [k [a [Hk [E _]]]]. destruct Hk as [<-|[<-|[]]]; discriminate E.
Qed.
Example C101_free_example : ~ label_taken ExFem ex_tet ex_brep_fem.
Proof.
  intros [[a [[] _]]|[k [a [Hk [Ha [_ [_ N]]]]]]]. destruct Hk as [<-|[<-|[]]]; repeat (destruct Ha as [<-|Ha]; [discriminate N|]); destruct Ha.
Qed.
(** An attribute bears the name of the labels. *)
Example C101_taken_example : fem_solid ExFem (-1)%Q ex_tet (repeat [0; 1; 2] 5) []
  (mkBrep ExFem ex_cs [] (mkBblock ExFem None (lit "u3") [mkPattr ExFem (lit "Block_ID_polyhedron") true true [1%Q]] [[2]] [5] :: ex_blocks)) = Throw ExData.
Proof. reflexivity. Qed.
(** A block without cells whose attribute is read. *)
Example C101_empty_example : fem_solid ExFem (-1)%Q ex_tet (repeat [0; 1; 2] 5) []
  (mkBrep ExFem ex_cs [] (mkBblock ExFem None (lit "u3") [mkPattr ExFem (lit "por") true true []] [] [] :: ex_blocks)) = UB.
Proof. reflexivity. Qed.
