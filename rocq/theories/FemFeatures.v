(** * Facts about the discrete features of the FEM writer. *)
From Coq Require Import ZArith List Lia Bool Ascii String Permutation.
From Verif Require Import Base Text TextFacts FemModel FemSpec FemFacts.
Import ListNotations.
Local Open Scope string_scope.
Local Open Scope list_scope.
Local Open Scope Z_scope.

Lemma beq_false_lit (a b : bytes) : beq a b = false -> a <> b.
Proof. intros H. now apply beq_neq. Qed.

Section Features.
Context (V : FemVal).
(** One facet or edge: vertices, aperture or area, conductivity. *)
Definition row : Type := list Z * val V * option (val V).
Definition row_val (r : row) : val V := snd (fst r).
Definition is_kept (r : row) : bool := negb (vneg V (row_val r)).
Definition kept (rs : list row) : list row := filter is_kept rs.
Definition from (id : Z) {A} (l : list A) : list (Z * A) := combine (rangez id (List.length l)) l.
Definition shift_nodes (nodes : list Z) : list Z := map (fun x => add32 x 1) nodes.
Definition feats (id : Z) (ks : list row) : list (list Z * Z) :=
  map (fun p => (shift_nodes (fst (fst (snd p))), fst p)) (from id ks).
Definition ids (id : Z) (ks : list row) : list Z := rangez id (List.length ks).
Definition main_pairs (id : Z) (ks : list row) : list (Z * val V) := map (fun p => (fst p, row_val (snd p))) (from id ks).
Definition cond_pair (p : Z * row) : list (Z * val V) :=
  match snd (snd p) with Some c => if vpos V c then [(fst p, c)] else [] | None => [] end.
Definition cond_pairs (id : Z) (ks : list row) : list (Z * val V) := flat_map cond_pair (from id ks).
Definition props (main : bytes) (id : Z) (ks : list row) : list (bytes * table (K := val V)) :=
  match ks with
  | [] => []
  | _ => (main, table_of (veqb V) (main_pairs id ks)) ::
         match cond_pairs id ks with
         | [] => []
         | cs => [(CONDUCTIVITY, table_of (veqb V) cs)]
         end
  end.
Definition group_of (name main : bytes) (id : Z) (ks : list row) : group V :=
  mkGroup V name (feats id ks) (ids id ks) (props main id ks).
Definition step (main : bytes) (st : group V * Z) (r : row) : group V * Z :=
  one_feature V main (fst (fst r)) (row_val r) (snd r) st.

Lemma from_snoc {A} id (l : list A) x : from id (l ++ [x]) = from id l ++ [(id + Z.of_nat (List.length l), x)].
Proof.
  unfold from. rewrite app_length. cbn [List.length]. rewrite rangez_app. cbn [rangez].
  apply combine_snoc. now rewrite rangez_length.
Qed.
Lemma table_of_snoc {K} (eqb : K -> K -> bool) ps e k :
  table_of eqb (ps ++ [(e, k)]) = table_add eqb k e (table_of eqb ps).
Proof. unfold table_of. now rewrite fold_left_app. Qed.
Lemma main_pairs_snoc id ks r : main_pairs id (ks ++ [r]) = main_pairs id ks ++ [(id + Z.of_nat (List.length ks), row_val r)].
Proof. unfold main_pairs. rewrite from_snoc, map_app. reflexivity. Qed.
Lemma cond_pairs_snoc id ks r : cond_pairs id (ks ++ [r]) = cond_pairs id ks ++ cond_pair (id + Z.of_nat (List.length ks), r).
Proof. unfold cond_pairs. rewrite from_snoc, flat_map_app. cbn [flat_map]. now rewrite app_nil_r. Qed.
Lemma main_pairs_nil id ks : main_pairs id ks = [] -> ks = [].
Proof. destruct ks; [reflexivity|]. discriminate. Qed.

Lemma on_main main v id0 ks : on_property V main v id0 (props main (id0 - Z.of_nat (List.length ks)) ks) =
  (main, table_of (veqb V) (main_pairs (id0 - Z.of_nat (List.length ks)) ks ++ [(id0, v)])) ::
  match cond_pairs (id0 - Z.of_nat (List.length ks)) ks with [] => [] | cs => [(CONDUCTIVITY, table_of (veqb V) cs)] end.
Proof.
  set (id := id0 - Z.of_nat (List.length ks)). unfold props. destruct ks as [|k ks].
  - reflexivity.
  - unfold on_property. cbn [get_property_from]. rewrite beq_refl. cbn [nth_error upd]. rewrite table_of_snoc. reflexivity.
Qed.
Lemma on_cond main t c id cs : beq main CONDUCTIVITY = false ->
  on_property V CONDUCTIVITY c id ((main, t) :: match cs with [] => [] | _ => [(CONDUCTIVITY, table_of (veqb V) cs)] end)
  = (main, t) :: [(CONDUCTIVITY, table_of (veqb V) (cs ++ [(id, c)]))].
Proof.
  intros Hm. unfold on_property. cbn [get_property_from]. rewrite Hm. destruct cs as [|x cs].
  - reflexivity.
  - cbn [get_property_from]. rewrite beq_refl. cbn [nth_error upd]. rewrite table_of_snoc. reflexivity.
Qed.
Lemma props_snoc main id ks r : props main id (ks ++ [r]) =
  (main, table_of (veqb V) (main_pairs id (ks ++ [r]))) ::
  match cond_pairs id (ks ++ [r]) with [] => [] | cs => [(CONDUCTIVITY, table_of (veqb V) cs)] end.
Proof. unfold props. destruct (ks ++ [r]) eqn:E; [now destruct ks|reflexivity]. Qed.

Lemma step_kept name main id ks r : beq main CONDUCTIVITY = false -> is_kept r = true ->
  0 <= id -> id + Z.of_nat (List.length ks) + 1 < two32 ->
  step main (group_of name main id ks, id + Z.of_nat (List.length ks)) r =
  (group_of name main id (ks ++ [r]), id + Z.of_nat (List.length (ks ++ [r]))).
Proof.
  intros Hm Hk Hid Hlt. unfold step, one_feature. unfold is_kept in Hk. apply negb_true_iff in Hk. rewrite Hk.
  unfold group_of. cbn [g_name g_features g_ids g_props]. f_equal.
  - f_equal.
    + unfold feats. rewrite from_snoc, map_app. reflexivity.
    + unfold ids. rewrite app_length. cbn [List.length]. rewrite rangez_app. reflexivity.
    + rewrite props_snoc, main_pairs_snoc, cond_pairs_snoc. unfold cond_pair. cbn [snd fst].
      pose proof (on_main main (row_val r) (id + Z.of_nat (List.length ks)) ks) as E.
      replace (id + Z.of_nat (List.length ks) - Z.of_nat (List.length ks)) with id in E by lia. rewrite E.
      destruct (snd r) as [c|]; [|now rewrite app_nil_r]. destruct (vpos V c); [|now rewrite app_nil_r].
      destruct (cond_pairs id ks) as [|x cs]; [exact (on_cond main _ c _ [] Hm)|exact (on_cond main _ c _ (x :: cs) Hm)].
  - rewrite app_length. cbn [List.length]. rewrite add32_small by lia. lia.
Qed.
Lemma step_dropped main st r : is_kept r = false -> step main st r = st.
Proof.
  intros H. unfold step, one_feature. destruct st. unfold is_kept in H. apply negb_false_iff in H. now rewrite H.
Qed.
Lemma kept_length rs : (List.length (kept rs) <= List.length rs)%nat.
Proof. unfold kept. induction rs as [|r rs IH]; cbn; [lia|]. destruct (is_kept r); cbn; lia. Qed.
Lemma group_fold name main id rs : beq main CONDUCTIVITY = false -> 0 <= id -> id + Z.of_nat (List.length rs) < two32 ->
  fold_left (step main) rs (mkGroup V name [] [] [], id)
  = (group_of name main id (kept rs), id + Z.of_nat (List.length (kept rs))).
Proof.
  intros Hm Hid. induction rs as [|r rs IH] using rev_ind; intros Hlt.
  - cbn. rewrite Z.add_0_r. reflexivity.
  - rewrite app_length in Hlt. cbn [List.length] in Hlt. rewrite fold_left_app, IH by lia. cbn [fold_left].
    unfold kept. rewrite filter_app. cbn [filter]. fold (kept rs). pose proof (kept_length rs).
    destruct (is_kept r) eqn:E.
    + rewrite step_kept by (assumption || lia). reflexivity.
    + rewrite app_nil_r, step_dropped by assumption. reflexivity.
Qed.

(** Rows of the facets or edges: all the attributes have one value per facet or edge. *)
Definition rows_of (cells : list (list Z)) (vals : list (val V)) (conds : option (list (val V))) : list row :=
  match conds with
  | None => map (fun p => (fst p, snd p, None)) (combine cells vals)
  | Some cs => map (fun p => (fst (fst p), snd (fst p), Some (snd p))) (combine (combine cells vals) cs)
  end.
Definition sized (cells : list (list Z)) (vals : list (val V)) (conds : option (list (val V))) : Prop :=
  List.length vals = List.length cells /\ match conds with Some cs => List.length cs = List.length cells | None => True end.

Lemma foldM_steps main vals conds cells : forall vs cs pre st,
  vals = pre ++ vs -> List.length vs = List.length cells ->
  match conds with Some c => exists cpre, c = cpre ++ cs /\ List.length cpre = List.length pre /\ List.length cs = List.length cells | None => True end ->
  foldM (feature_step V main vals conds) (combine (rangez (Z.of_nat (List.length pre)) (List.length cells)) cells) st
  = Ok (fold_left (step main) (rows_of cells vs (match conds with Some _ => Some cs | None => None end)) st).
Proof.
  induction cells as [|c cells IH]; intros vs cs pre st E L C.
  - destruct conds; unfold rows_of; destruct vs; reflexivity.
  - destruct vs as [|v vs]; [discriminate|]. cbn [List.length rangez combine foldM]. cbn [feature_step].
    assert (Ev : idxz vals (Z.of_nat (List.length pre)) = Ok v).
    { unfold idxz. rewrite nthz_nat, E, nth_error_app2, Nat.sub_diag by lia. reflexivity. }
    rewrite Ev. cbn [bind].
    assert (E' : vals = (pre ++ [v]) ++ vs) by (rewrite <- app_assoc; exact E).
    cbn [List.length] in L.
    replace (Z.of_nat (List.length pre) + 1) with (Z.of_nat (List.length (pre ++ [v]))) by (rewrite app_length; cbn; lia).
    destruct conds as [cl|].
    + destruct C as [cpre [Ec [Lp Lc]]]. destruct cs as [|x cs]; [discriminate|]. cbn [List.length] in Lc.
      assert (Ex : idxz cl (Z.of_nat (List.length pre)) = Ok x).
      { unfold idxz. rewrite nthz_nat, Ec, nth_error_app2 by lia. rewrite Lp, Nat.sub_diag. reflexivity. }
      unfold rows_of. cbn [combine map fst snd fold_left].
      pose proof (IH vs cs (pre ++ [v])) as IH'. unfold rows_of in IH'.
      destruct (vneg V v) eqn:Ng.
      * cbn [bind]. rewrite IH'; [|assumption|lia|exists (cpre ++ [x]); rewrite <- app_assoc, !app_length; cbn; repeat split; [assumption|lia|lia]].
        do 2 f_equal. unfold step, one_feature, row_val. cbn [fst snd]. rewrite Ng. now destruct st.
      * rewrite Ex. cbn [bind]. rewrite IH'; [reflexivity|assumption|lia|exists (cpre ++ [x]); rewrite <- app_assoc, !app_length; cbn; repeat split; [assumption|lia|lia]].
    + unfold rows_of. cbn [combine map fst snd fold_left bind].
      pose proof (IH vs [] (pre ++ [v])) as IH'. unfold rows_of in IH'. rewrite IH'; [reflexivity|assumption|lia|exact I].
Qed.
Lemma rows_of_length cells vals conds : sized cells vals conds -> List.length (rows_of cells vals conds) = List.length cells.
Proof.
  intros [H1 H2]. unfold rows_of. destruct conds; rewrite map_length, ?combine_length; lia.
Qed.
Lemma build_group_ok name main fi vals id : beq main CONDUCTIVITY = false ->
  sized (fi_cells V fi) vals (fi_cond V fi) -> 0 <= id -> id + Z.of_nat (List.length (fi_cells V fi)) < two32 ->
  let ks := kept (rows_of (fi_cells V fi) vals (fi_cond V fi)) in
  build_group V name main fi vals id =
  match ks with [] => Throw ExData | _ => Ok (group_of name main id ks, id + Z.of_nat (List.length ks)) end.
Proof.
  intros Hm Hs Hid Hlt ks. unfold build_group, enumerate.
  pose proof (foldM_steps main vals (fi_cond V fi) (fi_cells V fi) vals (match fi_cond V fi with Some c => c | None => [] end) []
    (mkGroup V name [] [] [], id)) as E. cbn [List.length Z.of_nat] in E. rewrite E; clear E.
  - replace (match fi_cond V fi with Some _ => Some (match fi_cond V fi with Some c => c | None => [] end) | None => None end)
      with (fi_cond V fi) by (destruct (fi_cond V fi); reflexivity).
    rewrite group_fold; [|assumption|assumption|rewrite rows_of_length by assumption; assumption].
    cbn [bind]. fold ks. destruct ks as [|k l]; [reflexivity|]. reflexivity.
  - reflexivity.
  - now destruct Hs.
  - destruct Hs as [_ Hs]. destruct (fi_cond V fi) as [c|]; [|exact I]. exists []. repeat split. exact Hs.
Qed.

(** ** The whole set of features *)
Definition fi_sized (fi : option (features_in V)) : Prop :=
  match fi with
  | Some f => match fi_main V f with Some vals => sized (fi_cells V f) vals (fi_cond V f) | None => True end
  | None => True
  end.
Definition fi_rows (fi : option (features_in V)) : list row :=
  match fi with
  | Some f => match fi_main V f with Some vals => rows_of (fi_cells V f) vals (fi_cond V f) | None => [] end
  | None => []
  end.
Definition nb_cells (fi : option (features_in V)) : Z :=
  match fi with Some f => Z.of_nat (List.length (fi_cells V f)) | None => 0 end.
Lemma build_opt_ok name main fi id gs id' : beq main CONDUCTIVITY = false -> fi_sized fi -> 0 <= id ->
  id + nb_cells fi < two32 -> build_opt V name main fi id = Ok (gs, id') ->
  id' = id + Z.of_nat (List.length (kept (fi_rows fi))) /\
  ((gs = [] /\ kept (fi_rows fi) = []) \/ (gs = [group_of name main id (kept (fi_rows fi))] /\ kept (fi_rows fi) <> [])).
Proof.
  intros Hm Hs Hid Hlt H. unfold build_opt in H. destruct fi as [f|].
  2:{ injection H as <- <-. cbn. split; [lia|now left]. }
  unfold fi_rows, fi_sized, nb_cells in *. destruct (fi_main V f) as [vals|].
  2:{ injection H as <- <-. cbn. split; [lia|now left]. }
  rewrite build_group_ok in H by assumption.
  destruct (kept (rows_of (fi_cells V f) vals (fi_cond V f))) as [|k ks] eqn:E; [discriminate|].
  cbn [bind] in H. injection H as <- <-. split; [reflexivity|]. right. split; [reflexivity|discriminate].
Qed.
End Features.
