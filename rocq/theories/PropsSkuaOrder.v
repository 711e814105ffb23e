(** * The order of the units of a SKUA stratigraphic column does not matter (C136). *)
From Coq Require Import ZArith List Lia Bool Ascii String Permutation.
From Verif Require Import Base Text TextFacts GocadModel TsModel LsoFacts SkuaModel PropsSkua.
Import ListNotations.
Local Open Scope string_scope.
Local Open Scope list_scope.
Local Open Scope Z_scope.

(** ** Specification *)
(** The relations of a stack, by the names of their horizon and unit *)
Definition names_of (s : stack) (r : Z * Z) : option (bytes * bytes) :=
  match nthz (k_horizons s) (fst r), nthz (k_units s) (snd r) with Some (n, _), Some u => Some (n, u) | _, _ => None end.

(** ** Facts *)
Lemma contact_perm a b : Permutation a b -> contact_of a = contact_of b.
Proof.
  intros H. pose proof (Permutation_length H) as L. destruct a as [|x [|y a]].
  - apply Permutation_nil in H. now subst.
  - apply Permutation_length_1_inv in H. now subst.
  - destruct b as [|z [|w b]]; cbn [List.length] in L; try discriminate L. destruct x, z; reflexivity.
Qed.
Definition unit_name (u : xml) : bytes := strip (child_value (child "name" u)).
(** Relations by names, from the document *)
Definition named (part : xml -> list (bytes * bool)) (us : list xml) : list (option (bytes * bytes)) :=
  flat_map (fun u => map (fun e => Some (fst e, unit_name u)) (part u)) us.
Lemma named_pairs part s rest us : forall k before, k = lenz before -> k_units s = map unit_name (before ++ us) ->
  Forall2 (relation_is (k_horizons s)) rest (pairs part k us) -> map (names_of s) rest = named part us.
Proof.
  revert rest. induction us as [|u us IH]; intros rest k before K U F; cbn [pairs] in F.
  - inversion F. reflexivity.
  - apply Forall2_app_inv_r in F. destruct F as (l1 & l2 & F1 & F2 & ->). rewrite map_app. unfold named. cbn [flat_map]. f_equal.
    + assert (N : nthz (k_units s) k = Some (unit_name u)).
      { rewrite U, map_app. cbn [map]. subst k. replace (lenz before) with (lenz (map unit_name before) + 0) by (unfold lenz; rewrite map_length; lia).
        rewrite nthz_app_r by lia. reflexivity. }
      clear -F1 N. revert l1 F1. induction (part u) as [|e es IH]; intros l1 F1; cbn [map] in F1; inversion F1 as [|r ? l1' ? R F']; subst; [reflexivity|].
      cbn [map]. f_equal; [|now apply IH]. destruct R as (R1 & c & R2). cbn [fst snd] in *. unfold names_of. rewrite R2, R1, N. reflexivity.
    + apply (IH l2 (k + 1) (before ++ [u])); [|now rewrite <- app_assoc|exact F2]. rewrite LsoFacts.lenz_app. subst k. reflexivity.
Qed.

(** ** Theorems *)

(** Two columns whose files list the same units in any order have the same horizons with the same contacts, the same units and the same relations. *)
Theorem C136_order : forall d1 d2 s1 s2, Permutation (units_of d1) (units_of d2) -> read_stack d1 = Ok s1 -> read_stack d2 = Ok s2 ->
  Permutation (k_horizons s1) (k_horizons s2) /\ Permutation (k_units s1) (k_units s2) /\
  Permutation (map (names_of s1) (k_above s1)) (map (names_of s2) (k_above s2)) /\
  Permutation (map (names_of s1) (k_under s1)) (map (names_of s2) (k_under s2)) /\
  ~ In None (map (names_of s1) (k_above s1 ++ k_under s1)).
Proof.
  intros d1 d2 s1 s2 HP E1 E2.
  destruct (C49_horizons_and_contacts d1 s1 E1) as (_ & U1 & N1 & I1 & _ & C1 & A1 & B1).
  destruct (C49_horizons_and_contacts d2 s2 E2) as (_ & U2 & N2 & I2 & _ & C2 & A2 & B2).
  assert (M : forall n, In n (mentions (units_of d1)) <-> In n (mentions (units_of d2))).
  { intros n. split; apply Permutation_in; [|apply Permutation_sym]; now apply Permutation_flat_map. }
  assert (K : forall n, contact_of (marks n (units_of d1)) = contact_of (marks n (units_of d2))).
  { intros n. apply contact_perm. now apply Permutation_flat_map. }
  assert (H1 : forall d s, Forall2 (relation_is (k_horizons s)) (k_above s) (pairs tops 0 (units_of d)) -> k_units s = map unit_name (units_of d) ->
     map (names_of s) (k_above s) = named tops (units_of d)) by (intros d s F U; now apply (named_pairs tops s (k_above s) (units_of d) 0 [])).
  assert (H2 : forall d s, Forall2 (relation_is (k_horizons s)) (k_under s) (pairs bases 0 (units_of d)) -> k_units s = map unit_name (units_of d) ->
     map (names_of s) (k_under s) = named bases (units_of d)) by (intros d s F U; now apply (named_pairs bases s (k_under s) (units_of d) 0 [])).
  split; [|split; [|split; [|split]]].
  - apply NoDup_Permutation.
    + apply (NoDup_map_inv fst). exact N1.
    + apply (NoDup_map_inv fst). exact N2.
    + assert (Q : forall d s d' s', (forall n, In n (map fst (k_horizons s)) <-> In n (mentions (units_of d))) -> (forall n, In n (map fst (k_horizons s')) <-> In n (mentions (units_of d'))) ->
        (forall n c, In (n, c) (k_horizons s) -> c = contact_of (marks n (units_of d))) -> (forall n c, In (n, c) (k_horizons s') -> c = contact_of (marks n (units_of d'))) ->
        (forall n, In n (mentions (units_of d)) <-> In n (mentions (units_of d'))) -> (forall n, contact_of (marks n (units_of d)) = contact_of (marks n (units_of d'))) ->
        forall x, In x (k_horizons s) -> In x (k_horizons s')).
      { intros d s d' s' P1 P2 P3 P4 P5 P6 [n c] HI. assert (J : In n (map fst (k_horizons s'))) by (apply P2, P5, P1; now apply (in_map fst) in HI).
        apply in_map_iff in J. destruct J as ([n' c'] & Q & J). cbn [fst] in Q. subst n'. now rewrite (P3 n c HI), P6, <- (P4 n c' J). }
      intros x. split; [apply (Q d1 s1 d2 s2)|apply (Q d2 s2 d1 s1)]; try assumption; intros n; symmetry; auto.
  - rewrite U1, U2. now apply Permutation_map.
  - rewrite (H1 d1 s1 A1 U1), (H1 d2 s2 A2 U2). now apply Permutation_flat_map.
  - rewrite (H2 d1 s1 B1 U1), (H2 d2 s2 B2 U2). now apply Permutation_flat_map.
  - rewrite map_app, (H1 d1 s1 A1 U1), (H2 d1 s1 B1 U1). unfold named. rewrite in_app_iff, !in_flat_map.
    intros [(u & _ & Q)|(u & _ & Q)]; apply in_map_iff in Q; destruct Q as (e & Q & _); discriminate Q.
Qed.
Print Assumptions C136_order.

(** Finding: entries without a name are taken for one horizon with an empty name. *)
Definition ex_unnamed : xml := tag [] [tag "UserObjects" [tag "LocalStratigraphicColumn" [tag "name" [PCData "col"];
  Element "units" [(lit "use_base_names", lit "0")] [
    tag "unit" [tag "name" [PCData "u0"]; tag "base" [tag "relation" [PCData "structural"]]];
    tag "unit" [tag "name" [PCData "u1"]; tag "base" [tag "relation" [PCData "stratigraphic"]]]]]]].
Theorem C136_unnamed_refuted : exists doc s, read_stack doc = Ok s /\ lenz (units_of doc) = 2 /\ k_horizons s = [([], Baselap)] /\ k_under s = [(0, 0); (0, 1)].
Proof. exists ex_unnamed. eexists. split; [vm_compute; reflexivity|]. split; [reflexivity|]. split; vm_compute; reflexivity. Qed.
Print Assumptions C136_unnamed_refuted.

(** The units of the document of C49, the last one first. *)
Definition ex_doc2 : xml := tag [] [tag "UserObjects" [tag "LocalStratigraphicColumn" [tag "name" [PCData "other"];
  Element "units" [(lit "use_base_names", lit "yes")] (rev (units_of ex_doc))]]].
Example C136_case : Permutation (units_of ex_doc) (units_of ex_doc2) /\
  exists s, read_stack ex_doc2 = Ok s /\ k_horizons s = [(lit "c", Baselap); (lit "d", Conformal); (lit "b", Discontinuity); (lit "a", Erosion)].
Proof.
  split; [change (units_of ex_doc2) with (rev (units_of ex_doc)); apply Permutation_rev|]. eexists. split; vm_compute; reflexivity.
Qed.
