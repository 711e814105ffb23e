(** * Properties C53, C89 and C90: FEM export of a BRep. *)
From Coq Require Import ZArith List Lia Bool Ascii String QArith.
From Verif Require Import Base Text TextFacts GocadModel LsoFacts FemModel FemSpec FemFacts FemFeatures PropsFem ExFem BrepFemModel.
Import ListNotations.
Local Open Scope string_scope.
Local Open Scope list_scope.
Local Open Scope Z_scope.

(** ** Writing in lists *)
Definition upds {A} (ws : list (Z * A)) (l : list A) : list A := fold_left (fun l w => upd l (Z.to_nat (fst w)) (snd w)) ws l.
Definition in_range {A} (n : nat) (ws : list (Z * A)) : Prop := Forall (fun w => 0 <= fst w < Z.of_nat n) ws.
Lemma upds_length {A} ws : forall l : list A, List.length (upds ws l) = List.length l.
Proof. induction ws as [|w ws IH]; intros l; [reflexivity|]. unfold upds in *. cbn [fold_left]. now rewrite IH, upd_length. Qed.
Lemma upds_app {A} a b (l : list A) : upds (a ++ b) l = upds b (upds a l).
Proof. unfold upds. apply fold_left_app. Qed.
Lemma nthz_upd {A} (l : list A) i v f : 0 <= i < lenz l -> nthz (upd l (Z.to_nat i) v) f = if i =? f then Some v else nthz l f.
Proof.
  intros H. unfold nthz. rewrite upd_length. unfold lenz in H. destruct (Z.leb_spec 0 f), (Z.ltb_spec f (Z.of_nat (List.length l))); cbn [andb].
  2-4: destruct (Z.eqb_spec i f); [lia|reflexivity].
  rewrite nth_error_upd. destruct (Z.eqb_spec i f) as [->|N].
  - rewrite Nat.eqb_refl. now rewrite (proj2 (Nat.ltb_lt _ _)) by lia.
  - destruct (Nat.eqb_spec (Z.to_nat i) (Z.to_nat f)); [lia|reflexivity].
Qed.
(** The last value written at a place, otherwise what was there. *)
Lemma nthz_upds {A} ws : forall (l : list A) f x, in_range (List.length l) ws -> nthz (upds ws l) f = Some x ->
  In (f, x) ws \/ ((forall y, ~ In (f, y) ws) /\ nthz l f = Some x).
Proof.
  induction ws as [|[i v] ws IH]; intros l f x R H; [right; split; [intros y []|exact H]|].
  inversion R as [|? ? R1 R2]; subst. cbn [fst snd] in *. unfold upds in H. cbn [fold_left fst snd] in H. fold (upds ws (upd l (Z.to_nat i) v)) in H.
  apply IH in H; [|unfold in_range; now rewrite upd_length]. destruct H as [H|[H1 H2]]; [left; now right|].
  rewrite nthz_upd in H2 by (unfold lenz; lia). destruct (Z.eqb_spec i f) as [->|N].
  - left. left. congruence.
  - right. split; [|exact H2]. intros y [Q|Q]; [congruence|]. now apply (H1 y).
Qed.
Lemma setz_in_range {A} (l : list A) i v : 0 <= i < lenz l -> setz l i v = Ok (upd l (Z.to_nat i) v).
Proof. intros H. unfold setz. unfold lenz in H. destruct (Z.leb_spec 0 i), (Z.ltb_spec i (Z.of_nat (List.length l))); try lia. reflexivity. Qed.
Lemma nthz_repeat {A} (a : A) n f : nthz (repeat a n) f = if (0 <=? f) && (f <? Z.of_nat n) then Some a else None.
Proof.
  unfold nthz. rewrite repeat_length. destruct (Z.leb_spec 0 f), (Z.ltb_spec f (Z.of_nat n)); cbn [andb]; try reflexivity.
  assert (G : forall m, (m < n)%nat -> nth_error (repeat a n) m = Some a); [|apply G; lia].
  clear. induction n as [|n IH]; intros m H; [lia|]. destruct m; [reflexivity|]. cbn. apply IH. lia.
Qed.

(** ** C53 *)
Section Paint.
Context (V : FemVal) (minus_one : val V).
(** Element [e] of [c], of value [v] for the attribute, is on cell [f] of the solid. *)
Definition carried (attribute : bytes) (c : bcomp V) (f : Z) (v : val V) : Prop :=
  exists vs e fs, assoc attribute (q_attrs V c) = Some vs /\ nthz vs e = Some v /\ nthz (q_images V c) e = Some fs /\ In f fs.
Definition defines (attribute : bytes) (c : bcomp V) : Prop := assoc attribute (q_attrs V c) <> None.
(** One value per element, images among the [n] cells of the solid. *)
Definition well_formed (n : nat) (c : bcomp V) : Prop :=
  (forall a vs, assoc a (q_attrs V c) = Some vs -> List.length vs = List.length (q_images V c))
  /\ Forall (Forall (fun f => 0 <= f < Z.of_nat n)) (q_images V c).
(** The values of an attribute on the cells of the solid: those of the elements on the cell, -1 on a cell with none. *)
Definition values_of (attribute : bytes) (cs : list (bcomp V)) (n : nat) (vals : list (val V)) : Prop :=
  List.length vals = n /\ forall f, 0 <= f < Z.of_nat n -> exists v, nthz vals f = Some v
  /\ ((exists c, In c cs /\ carried attribute c f v) \/ ((forall c w, In c cs -> ~ carried attribute c f w) /\ v = minus_one)).

Definition rows (attribute : bytes) (c : bcomp V) : list (val V * list Z) :=
  match assoc attribute (q_attrs V c) with Some vs => combine vs (q_images V c) | None => [] end.
Definition vwrites (attribute : bytes) (c : bcomp V) : list (Z * val V) := flat_map (fun r => map (fun f => (f, fst r)) (snd r)) (rows attribute c).
Definition nwrites (attribute : bytes) (c : bcomp V) : list (Z * bytes) :=
  match q_name V c with Some n => map (fun w => (fst w, n)) (vwrites attribute c) | None => [] end.
Lemma carried_iff attribute c f v : In (f, v) (vwrites attribute c) <-> carried attribute c f v.
Proof.
  unfold vwrites, carried, rows. rewrite in_flat_map. split.
  - intros [[w fs] [H1 H2]]. apply in_map_iff in H2 as [f' [E H2]]. cbn [fst snd] in *. assert (f' = f /\ w = v) as [-> ->] by (split; congruence).
    destruct (assoc attribute (q_attrs V c)) as [vs|]; [|destruct H1]. apply nthz_of_in in H1 as [e H1]. exists vs, e, fs. split; [reflexivity|].
    revert H1. generalize (q_images V c) as im. revert e. induction vs as [|a vs IH]; intros e im H; [apply nthz_range in H; unfold lenz in H; cbn in H; lia|].
    destruct im as [|i im]; [apply nthz_range in H; unfold lenz in H; cbn in H; lia|]. cbn [combine] in H. rewrite nthz_cons in H. rewrite !nthz_cons.
    destruct (e =? 0); [split; [congruence|]; split; [congruence|assumption]|]. now apply IH.
  - intros [vs [e [fs [E [H1 [H2 H3]]]]]]. rewrite E. exists (v, fs). split; [|apply in_map_iff; exists f; auto].
    revert H1 H2. generalize (q_images V c) as im. clear E. revert e. induction vs as [|a vs IH]; intros e im H1 H2; [apply nthz_range in H1; unfold lenz in H1; cbn in H1; lia|].
    destruct im as [|i im]; [apply nthz_range in H2; unfold lenz in H2; cbn in H2; lia|]. rewrite nthz_cons in H1. rewrite nthz_cons in H2. cbn [combine].
    destruct (e =? 0); [left; congruence|right; eauto].
Qed.
Lemma paint_cells v name fs : forall vals names n, List.length vals = n -> List.length names = n -> Forall (fun f => 0 <= f < Z.of_nat n) fs ->
  foldM (paint_cell V v name) fs (vals, names)
  = Ok (upds (map (fun f => (f, v)) fs) vals, match name with Some m => upds (map (fun f => (f, m)) fs) names | None => names end).
Proof.
  induction fs as [|f fs IH]; intros vals names n L1 L2 H; [now destruct name|]. inversion H as [|? ? H1 H2]; subst. cbn [foldM map].
  unfold paint_cell at 1. cbn [fst snd]. rewrite setz_in_range by (unfold lenz; lia). cbn [bind]. destruct name as [m|].
  - rewrite setz_in_range by (unfold lenz; lia). cbn [bind]. now rewrite (IH _ _ (List.length vals)) by (rewrite ?upd_length; auto).
  - cbn [bind]. now rewrite (IH _ _ (List.length vals)) by (rewrite ?upd_length; auto).
Qed.
Lemma paint_rows name vs : forall im vals names n k all, List.length vals = n -> List.length names = n -> List.length vs = List.length im ->
  Forall (Forall (fun f => 0 <= f < Z.of_nat n)) im -> (forall i, 0 <= i -> nthz all (k + i) = nthz vs i) ->
  foldM (fun st (e : Z * list Z) => do v <- idxz all (fst e); foldM (paint_cell V v name) (snd e) st) (combine (rangez k (List.length im)) im) (vals, names)
  = let ws := flat_map (fun r : val V * list Z => map (fun f => (f, fst r)) (snd r)) (combine vs im) in
    Ok (upds ws vals, match name with Some m => upds (map (fun w => (fst w, m)) ws) names | None => names end).
Proof.
  induction vs as [|v vs IH]; intros im vals names n k all L1 L2 L3 F A; destruct im as [|fs im]; try discriminate L3.
  - cbn. now destruct name.
  - inversion F as [|? ? F1 F2]; subst. cbn [List.length rangez combine foldM fst snd flat_map].
    assert (E : idxz all k = Ok v) by (apply idxz_ok; specialize (A 0 ltac:(lia)); rewrite Z.add_0_r in A; rewrite A; reflexivity).
    rewrite E. cbn [bind]. rewrite (paint_cells v name fs vals names (List.length vals)) by auto. cbn [bind].
    rewrite (IH im _ _ (List.length vals)).
    + cbv zeta. rewrite upds_app. destruct name; [|reflexivity]. rewrite map_app, upds_app. now rewrite map_map.
    + apply upds_length.
    + destruct name; rewrite ?upds_length; auto.
    + cbn in L3. lia.
    + assumption.
    + intros i Hi. specialize (A (i + 1) ltac:(lia)). replace (k + 1 + i) with (k + (i + 1)) by lia. rewrite A. rewrite nthz_cons.
      destruct (Z.eqb_spec (i + 1) 0); [lia|]. f_equal. lia.
Qed.
Lemma paint_component_is attribute c vals names n : List.length vals = n -> List.length names = n -> well_formed n c ->
  paint_component V attribute (vals, names) c = Ok (upds (vwrites attribute c) vals, upds (nwrites attribute c) names).
Proof.
  intros L1 L2 [W1 W2]. unfold paint_component, nwrites, vwrites, rows. destruct (assoc attribute (q_attrs V c)) as [vs|] eqn:E.
  - unfold enumerate. rewrite (paint_rows (q_name V c) vs (q_images V c) vals names n 0 vs) by (eauto; now intros). cbv zeta. now destruct (q_name V c).
  - now destruct (q_name V c).
Qed.
Lemma vwrites_range attribute c n : well_formed n c -> in_range n (vwrites attribute c).
Proof.
  intros [_ W]. unfold in_range. rewrite Forall_forall. intros [f v] H. apply carried_iff in H as [vs [e [fs [_ [_ [H1 H2]]]]]].
  apply nthz_in in H1. rewrite Forall_forall in W. specialize (W _ H1). rewrite Forall_forall in W. now apply W.
Qed.
Lemma paint_components_is attribute cs : forall vals names n, List.length vals = n -> List.length names = n -> Forall (well_formed n) cs ->
  foldM (paint_component V attribute) cs (vals, names) = Ok (upds (flat_map (vwrites attribute) cs) vals, upds (flat_map (nwrites attribute) cs) names).
Proof.
  induction cs as [|c cs IH]; intros vals names n L1 L2 W; [reflexivity|]. inversion W as [|? ? W1 W2]; subst. cbn [foldM flat_map].
  rewrite (paint_component_is attribute c vals names (List.length vals)) by auto. cbn [bind]. rewrite (IH _ _ (List.length vals)); [now rewrite !upds_app| | |assumption]; rewrite upds_length; auto.
Qed.
Lemma upds_values attribute cs n : Forall (well_formed n) cs -> values_of attribute cs n (upds (flat_map (vwrites attribute) cs) (repeat minus_one n)).
Proof.
  intros W. split; [now rewrite upds_length, repeat_length|]. intros f Hf.
  assert (L : List.length (upds (flat_map (vwrites attribute) cs) (repeat minus_one n)) = n) by now rewrite upds_length, repeat_length.
  destruct (nthz (upds (flat_map (vwrites attribute) cs) (repeat minus_one n)) f) as [v|] eqn:E.
  - exists v. split; [reflexivity|]. apply nthz_upds in E.
    + destruct E as [E|[E1 E2]].
      * left. apply in_flat_map in E as [c [H1 H2]]. exists c. split; [assumption|]. now apply carried_iff.
      * right. split; [|rewrite nthz_repeat in E2; destruct (_ && _) in E2; congruence]. intros c w Hc Q. apply (E1 w). apply in_flat_map. exists c. split; [assumption|]. now apply carried_iff.
    + rewrite repeat_length. unfold in_range. rewrite Forall_forall. intros w Hw. apply in_flat_map in Hw as [c [H1 H2]]. rewrite Forall_forall in W.
      pose proof (vwrites_range attribute c n (W c H1)) as R. unfold in_range in R. rewrite Forall_forall in R. now apply R.
  - exfalso. unfold nthz in E. rewrite L in E. destruct (Z.leb_spec 0 f), (Z.ltb_spec f (Z.of_nat n)); try lia. cbn [andb] in E. apply nth_error_None in E. lia.
Qed.
End Paint.
(** The export paints the conductivity of every component; the aperture (area) of every component if the first one defines it. *)
Theorem C53_painted : forall V minus_one n main (cs : list (bcomp V)), Forall (well_formed V n) cs ->
  exists p, paint_infos V minus_one n main cs = Ok p
  /\ (exists vals, p_cond V p = Some vals /\ values_of V minus_one CONDUCTIVITY cs n vals)
  /\ (forall c r, cs = c :: r -> defines V main c -> exists vals, p_main V p = Some vals /\ values_of V minus_one main cs n vals).
Proof.
  intros V m1 n main cs W. unfold paint_infos.
  assert (C : forall q, p_cond V q = None -> (forall l, p_names V q = Some l -> List.length l = n) -> exists names, paint_cond V m1 n cs q
    = Ok (mkPainted V (p_main V q) (Some (upds (flat_map (vwrites V CONDUCTIVITY) cs) (repeat m1 n))) (Some names))).
  { intros q Q1 Q2. unfold paint_cond. rewrite Q1. cbn [get_or]. rewrite (paint_components_is V CONDUCTIVITY cs _ _ n); [eexists; reflexivity|apply repeat_length| |assumption].
    destruct (p_names V q) as [l|]; cbn [get_or]; [now apply Q2|apply repeat_length]. }
  assert (D : exists q, (match cs with [] => Ok (mkPainted V None None None) | c :: _ => match assoc main (q_attrs V c) with Some _ => paint_main V m1 n main cs (mkPainted V None None None) | None => Ok (mkPainted V None None None) end end) = Ok q
    /\ p_cond V q = None /\ (forall l, p_names V q = Some l -> List.length l = n)
    /\ forall c r, cs = c :: r -> defines V main c -> p_main V q = Some (upds (flat_map (vwrites V main) cs) (repeat m1 n))).
  { destruct cs as [|c r]; [eexists; split; [reflexivity|]; repeat split; cbn; intros; discriminate|].
    destruct (assoc main (q_attrs V c)) eqn:E.
    - unfold paint_main. cbn [p_main p_names get_or]. rewrite (paint_components_is V main (c :: r) _ _ n); [|apply repeat_length|apply repeat_length|assumption].
      cbn [bind]. eexists. split; [reflexivity|]. cbn [p_cond p_names p_main]. split; [reflexivity|]. split; [|reflexivity]. intros l0 Hl. assert (l0 = upds (flat_map (nwrites V main) (c :: r)) (repeat (lit "No_name") n)) as -> by congruence. rewrite upds_length. apply repeat_length.
    - eexists. split; [reflexivity|]. split; [reflexivity|]. split; [cbn; intros; discriminate|]. intros c' r' Q1 Q2. exfalso. apply Q2. injection Q1 as <- <-. exact E. }
  destruct D as [q [-> [D1 [D2 D3]]]]. cbn [bind]. destruct (C q D1 D2) as [names ->]. eexists. split; [reflexivity|]. cbn [p_cond p_main]. split.
  - eexists. split; [reflexivity|]. now apply upds_values.
  - intros c r E Df. rewrite (D3 c r E Df). eexists. split; [reflexivity|]. now apply upds_values.
Qed.
Print Assumptions C53_painted.
(** When the first surface (line) does not define it, the attribute of all the others is lost. *)
Theorem C53_main_lost_refuted : forall V minus_one n main c (r : list (bcomp V)) p, ~ defines V main c ->
  paint_infos V minus_one n main (c :: r) = Ok p -> p_main V p = None.
Proof.
  intros V m1 n main c r p D H. unfold paint_infos in H. unfold defines in D. destruct (assoc main (q_attrs V c)); [exfalso; apply D; discriminate|].
  cbn [bind] in H. unfold paint_cond in H. apply bind_ok in H as [[a b] [_ H]]. inversion H. reflexivity.
Qed.
Print Assumptions C53_main_lost_refuted.
(** So no discrete feature at all is written for the surfaces. *)
Theorem C53_features_lost_refuted : forall V minus_one s0 facets edges (b : brep V) c r s, r_surfaces V b = c :: r -> ~ defines V (lit "diagres_discontinuity_aperture") c ->
  fem_solid V minus_one s0 facets edges b = Ok s -> wanted (s_facets V s) = [] /\ forall f, build_discrete_features V s = Ok f -> f2d V f = [].
Proof.
  intros V m1 s0 facets edges b c r s E D H. unfold fem_solid in H. do 4 (apply bind_ok in H as [? [_ H]]). apply bind_ok in H as [fp [H1 H]]. apply bind_ok in H as [ep [_ H]].
  rewrite E in H1. apply C53_main_lost_refuted in H1; [|assumption].
  match type of H with Ok ?x = Ok _ => assert (s = x) as -> by congruence end. cbn [s_facets]. rewrite H1. clear H. split; [reflexivity|]. intros f Hf.
  unfold build_discrete_features in Hf. cbn [s_facets build_opt fi_main bind] in Hf. apply bind_ok in Hf as [[g1 id] [_ Hf]]. inversion Hf. reflexivity.
Qed.
Print Assumptions C53_features_lost_refuted.

(** The discrete features of components: only cells with an element of non-negative value, with its value; and every cell with an
    element when all the values on it are non-negative. *)
Definition features_of (V : FemVal) (main : bytes) (cs : list (bcomp V)) (cells : list (list Z)) (w : list (list Z * val V)) : Prop :=
  (forall nodes v, In (nodes, v) w -> (exists c r, cs = c :: r /\ defines V main c) /\ vneg V v = false
     /\ exists f c, nthz cells f = Some nodes /\ In c cs /\ carried V main c f v)
  /\ (forall c r, cs = c :: r -> defines V main c -> forall f nodes c1 v, nthz cells f = Some nodes -> In c1 cs -> carried V main c1 f v ->
      (forall c' v', In c' cs -> carried V main c' f v' -> vneg V v' = false) -> exists v', In (nodes, v') w).
Lemma painted_features V minus_one main (cs : list (bcomp V)) cells p : vneg V minus_one = true -> Forall (well_formed V (List.length cells)) cs ->
  paint_infos V minus_one (List.length cells) main cs = Ok p -> features_of V main cs cells (wanted (Some (mkFeatIn V cells (p_main V p) (p_cond V p)))).
Proof.
  intros M W H. destruct (C53_painted V minus_one (List.length cells) main cs W) as [p' [P1 [_ P2]]]. assert (p' = p) as -> by congruence. clear P1. split.
  - intros nodes v Hw. destruct cs as [|c r].
    { exfalso. unfold paint_infos in H. cbn in H. inversion H as [Hp]. subst p. exact Hw. }
    destruct (assoc main (q_attrs V c)) as [vs|] eqn:D.
    2:{ exfalso. assert (L : p_main V p = None) by (apply (C53_main_lost_refuted V minus_one (List.length cells) main c r); [unfold defines; rewrite D; intros Q; now apply Q|assumption]).
        unfold wanted in Hw. cbn [fi_main] in Hw. rewrite L in Hw. exact Hw. }
    assert (Df : defines V main c) by (unfold defines; rewrite D; discriminate).
    split; [exists c, r; split; [reflexivity|exact Df]|]. destruct (P2 c r eq_refl Df) as [vals [P3 [P4 P5]]].
    unfold wanted in Hw. cbn [fi_main fi_cells] in Hw. rewrite P3 in Hw.
    apply filter_In in Hw as [Hw1 Hw2]. cbn [snd] in Hw2. apply negb_true_iff in Hw2. split; [exact Hw2|].
    apply nthz_of_in in Hw1 as [f Hf].
    assert (G : forall (a : list (list Z)) (b : list (val V)) f x y, nthz (combine a b) f = Some (x, y) -> nthz a f = Some x /\ nthz b f = Some y).
    { clear. induction a as [|x0 a IH]; intros b f x y H; [apply nthz_range in H; unfold lenz in H; cbn in H; lia|]. destruct b as [|y0 b]; [apply nthz_range in H; unfold lenz in H; cbn in H; lia|].
      cbn [combine] in H. rewrite nthz_cons in H. rewrite !nthz_cons. destruct (f =? 0); [split; congruence|now apply IH]. }
    apply G in Hf as [F1 F2]. apply nthz_range in F1 as F3. unfold lenz in F3. destruct (P5 f F3) as [w [Q1 [[c' [Q2 Q3]]|[_ Q2]]]].
    + exists f, c'. split; [exact F1|]. split; [exact Q2|]. now assert (v = w) as -> by congruence.
    + exfalso. congruence.
  - intros c r E Df f nodes c1 v F1 I1 K1 A. destruct (P2 c r E Df) as [vals [P3 [P4 P5]]]. unfold wanted. cbn [fi_main fi_cells]. rewrite P3.
    apply nthz_range in F1 as F3. unfold lenz in F3. destruct (P5 f F3) as [w [Q1 [[c' [Q2 Q3]]|[Q2 _]]]].
    2:{ exfalso. now apply (Q2 c1 v I1). }
    exists w. apply filter_In. split; [|cbn [snd]; now rewrite (A c' w Q2 Q3)].
    assert (G : forall (a : list (list Z)) (b : list (val V)) f x y, nthz a f = Some x -> nthz b f = Some y -> In (x, y) (combine a b)).
    { clear. induction a as [|x0 a IH]; intros b f x y H1 H2; [apply nthz_range in H1; unfold lenz in H1; cbn in H1; lia|]. destruct b as [|y0 b]; [apply nthz_range in H2; unfold lenz in H2; cbn in H2; lia|].
      rewrite nthz_cons in H1. rewrite nthz_cons in H2. cbn [combine]. destruct (f =? 0); [left; congruence|right; eauto]. }
    now apply (G _ _ f).
Qed.
Theorem C53_features : forall V minus_one s0 facets edges (b : brep V) s, vneg V minus_one = true ->
  Forall (well_formed V (List.length facets)) (r_surfaces V b) -> Forall (well_formed V (List.length edges)) (r_lines V b) ->
  fem_solid V minus_one s0 facets edges b = Ok s ->
  features_of V (lit "diagres_discontinuity_aperture") (r_surfaces V b) facets (wanted (s_facets V s)) /\ features_of V (lit "diagres_conduit_area") (r_lines V b) edges (wanted (s_edges V s)).
Proof.
  intros V m1 s0 facets edges b s M W1 W2 H. unfold fem_solid in H. do 4 (apply bind_ok in H as [? [_ H]]). apply bind_ok in H as [fp [H1 H]]. apply bind_ok in H as [ep [H2 H]].
  inversion H as [Hs]. subst s. cbn [s_facets s_edges]. split; now apply (painted_features V m1).
Qed.
Print Assumptions C53_features.

(** ** C89: cell attributes *)
Section Cells.
Context (V : FemVal).
Definition cell_value (l : list (fattr V)) (n : bytes) (p : Z) : option (val V) :=
  match find (fun a => beq (f_name V a) n) l with Some a => nthz (f_vals V a) p | None => None end.
(** Block [b] gives cell [p] of the solid the value [v] for attribute [n]. *)
Definition gives (b : bblock V) (n : bytes) (p : Z) (v : val V) : Prop :=
  exists a e r, In a (l_attrs V b) /\ pa_name V a = n /\ pa_transferable V a = true /\ pa_number V a = true
  /\ nthz (pa_vals V a) e = Some v /\ nthz (l_images V b) e = Some (p :: r).
Lemma cell_value_set n i v l : forall l', set_fattr V n i v l = Ok l' ->
  forall m p, cell_value l' m p = match cell_value l m p with Some x => if beq n m && (i =? p) then Some v else Some x | None => None end.
Proof.
  induction l as [|a l IH]; intros l' H m p; [cbn in H; now inversion H|]. cbn [set_fattr] in H. unfold cell_value in *. cbn [find].
  destruct (beq (f_name V a) n) eqn:E.
  - apply beq_eq in E. apply bind_ok in H as [vs [H1 H]]. assert (l' = mkFattr V (f_name V a) (f_generic V a) vs :: l) as -> by congruence. cbn [find f_name].
    destruct (beq (f_name V a) m) eqn:E2.
    + apply beq_eq in E2. cbn [f_vals]. assert (n = m) as <- by congruence. rewrite beq_refl. cbn [andb].
      unfold setz in H1. destruct ((0 <=? i) && (i <? Z.of_nat (List.length (f_vals V a)))) eqn:R; [|discriminate H1].
      apply andb_true_iff in R as [R1 R2]. apply Z.leb_le in R1. apply Z.ltb_lt in R2. assert (vs = upd (f_vals V a) (Z.to_nat i) v) as -> by congruence.
      rewrite nthz_upd by (unfold lenz; lia). destruct (nthz (f_vals V a) p) eqn:N; destruct (Z.eqb_spec i p); try reflexivity. subst p. exfalso. unfold nthz in N.
      destruct (Z.leb_spec 0 i), (Z.ltb_spec i (Z.of_nat (List.length (f_vals V a)))); try lia. cbn [andb] in N. apply nth_error_None in N. lia.
    + destruct (beq n m) eqn:E3; [apply beq_eq in E3; exfalso; subst m; rewrite E, beq_refl in E2; discriminate E2|]. cbn [andb]. now destruct (match find _ _ with Some _ => _ | None => _ end).
  - apply bind_ok in H as [r [H1 H]]. assert (l' = a :: r) as -> by congruence. cbn [find]. destruct (beq (f_name V a) m) eqn:E2.
    + destruct (beq n m) eqn:E3; [apply beq_eq in E3; congruence|]. cbn [andb]. now destruct (nthz (f_vals V a) p).
    + now apply IH.
Qed.
Lemma cell_value_create n d nb l m p x : cell_value l m p = Some x -> cell_value (create_fattr V n d nb l) m p = Some x.
Proof.
  unfold create_fattr, find_fattr. destruct (find _ l) eqn:F; [auto|]. unfold cell_value. intros H.
  assert (G : forall g (l : list (fattr V)) r a, find g l = Some a -> find g (l ++ r) = Some a).
  { clear. induction l as [|y l IH]; intros r a H; [discriminate H|]. cbn in *. destruct (g y); [assumption|auto]. }
  destruct (find (fun a => beq (f_name V a) m) l) eqn:E; [|discriminate H]. now rewrite (G _ _ _ _ E).
Qed.
(** All the attributes of the solid have [nb] values. *)
Definition sized_attrs (nb : nat) (l : list (fattr V)) : Prop := Forall (fun a => List.length (f_vals V a) = nb) l.
Lemma created nb n d l p : sized_attrs nb l -> 0 <= p < Z.of_nat nb -> cell_value (create_fattr V n d nb l) n p <> None.
Proof.
  intros S P. unfold create_fattr, find_fattr. destruct (find (fun a => beq (f_name V a) n) l) as [a|] eqn:F.
  - unfold cell_value. rewrite F. apply find_some in F as [F _]. unfold sized_attrs in S. rewrite Forall_forall in S. specialize (S a F). unfold nthz. rewrite S.
    destruct (Z.leb_spec 0 p), (Z.ltb_spec p (Z.of_nat nb)); try lia. cbn [andb]. intros Q. apply nth_error_None in Q. lia.
  - unfold cell_value. assert (G : forall g (l r : list (fattr V)), find g l = None -> find g (l ++ r) = find g r).
    { clear. induction l as [|y l IH]; intros r H; [reflexivity|]. cbn in *. destruct (g y); [discriminate H|auto]. }
    rewrite G by assumption. cbn [find f_name]. rewrite beq_refl. cbn [f_vals]. rewrite nthz_repeat. destruct (Z.leb_spec 0 p), (Z.ltb_spec p (Z.of_nat nb)); try lia. discriminate.
Qed.
Lemma sized_create nb n d l : sized_attrs nb l -> sized_attrs nb (create_fattr V n d nb l).
Proof. intros S. unfold create_fattr. destruct (find_fattr V n l); [assumption|]. apply Forall_app. split; [assumption|]. constructor; [apply repeat_length|constructor]. Qed.
Lemma sized_set nb n i v l : forall l', sized_attrs nb l -> set_fattr V n i v l = Ok l' -> sized_attrs nb l'.
Proof.
  induction l as [|a l IH]; intros l' S H; [cbn in H; now inversion H|]. inversion S as [|? ? S1 S2]; subst. cbn [set_fattr] in H. destruct (beq _ _).
  - apply bind_ok in H as [vs [H1 H]]. match type of H with Ok ?x = _ => assert (l' = x) as -> by congruence end. constructor; [|assumption]. cbn [f_vals].
    unfold setz in H1. destruct (_ && _); [|discriminate H1]. inversion H1. now rewrite upd_length.
  - apply bind_ok in H as [r [H1 H]]. match type of H with Ok ?x = _ => assert (l' = x) as -> by congruence end. constructor; [reflexivity|]. now apply IH.
Qed.
(** A property preserved by the steps of a loop. *)
Lemma foldM_inv {A S} (f : S -> A -> res S) (P : S -> Prop) l : (forall s s' a, In a l -> P s -> f s a = Ok s' -> P s') ->
  forall s s', P s -> foldM f l s = Ok s' -> P s'.
Proof.
  induction l as [|a l IH]; intros H s s' Hs F; [cbn in F; now inversion F; subst|]. cbn [foldM] in F. apply bind_ok in F as [s1 [F1 F]].
  apply (IH (fun s s' a I => H s s' a (or_intror I)) s1 s'); [|assumption]. apply (H s s1 a); [now left|assumption|assumption].
Qed.
(** A property set by one step and preserved by all. *)
Lemma foldM_reach {A S} (f : S -> A -> res S) (I P : S -> Prop) l x : In x l -> (forall s s' a, In a l -> I s -> f s a = Ok s' -> I s') ->
  (forall s s' a, In a l -> I s -> P s -> f s a = Ok s' -> P s') -> (forall s s', I s -> f s x = Ok s' -> P s') ->
  forall s s', I s -> foldM f l s = Ok s' -> P s'.
Proof.
  induction l as [|a l IH]; intros X HI HP HX s s' Hs F; [destruct X|]. cbn [foldM] in F. apply bind_ok in F as [s1 [F1 F]].
  assert (I1 : I s1) by (apply (HI s s1 a); [now left|assumption|assumption]). destruct X as [->|X].
  - assert (P1 : P s1) by now apply (HX s). assert (Q : I s' /\ P s'); [|apply Q].
    apply (foldM_inv f (fun s => I s /\ P s) l) with (s := s1); [|split; assumption|assumption]. intros t t' b Hb [T1 T2] E. split; [apply (HI t t' b); [now right|assumption|assumption]|apply (HP t t' b); [now right|assumption|assumption|assumption]].
  - apply (IH X) with (s := s1); try assumption.
    + intros t t' b Hb. apply HI. now right.
    + intros t t' b Hb. apply HP. now right.
Qed.
Lemma enumerate_in {A} (l : list A) e x : In (e, x) (enumerate l) <-> nthz l e = Some x.
Proof.
  unfold enumerate. assert (G : forall l k, In (e, x) (combine (rangez k (List.length l)) l) <-> nthz l (e - k) = Some x).
  { clear. induction l as [|a l IH]; intros k; cbn [List.length rangez combine]; [split; [intros []|intros H; apply nthz_range in H; unfold lenz in H; cbn in H; lia]|].
    rewrite nthz_cons. cbn [In]. rewrite IH. destruct (Z.eqb_spec (e - k) 0) as [Q|Q].
    - split; [intros [H|H]; [congruence|apply nthz_range in H; lia]|]. intros H. left. f_equal; [lia|congruence].
    - replace (e - (k + 1)) with (e - k - 1) by lia. split; [intros [H|H]; [exfalso; apply Q; inversion H; lia|assumption]|auto]. }
  rewrite G. now rewrite Z.sub_0_r.
Qed.
End Cells.
(** Every cell that blocks give a value (all the same one) has it in the solid. *)
Theorem C89_cells : forall V nb (bs : list (bblock V)) l l', sized_attrs V nb l -> copy_attrs V nb bs l = Ok l' ->
  forall b n p v, In b bs -> gives V b n p v -> 0 <= p < Z.of_nat nb ->
  (forall b' v', In b' bs -> gives V b' n p v' -> v' = v) -> cell_value V l' n p = Some v.
Proof.
  intros V nb bs l l' S H b n p v Hb [a [e [r [G1 [G2 [G3 [G4 [G5 G6]]]]]]]] Rp U. unfold copy_attrs in H.
  set (I := sized_attrs V nb). set (P := fun l => cell_value V l n p = Some v).
  (* one attribute *)
  assert (SA : forall b0 a0 s s', I s -> copy_attr V nb b0 s a0 = Ok s' -> I s').
  { intros b0 a0 s s' Hs E. unfold copy_attr in E. destruct (_ || _); [now inversion E; subst|]. apply bind_ok in E as [v0 [_ E]].
    revert E. apply foldM_inv; [|now apply sized_create]. intros t t' [i im] _ Ht E. apply bind_ok in E as [q [_ E]]. apply bind_ok in E as [w [_ E]]. now apply (sized_set V nb) in E. }
  assert (ST : forall b0 a0, In b0 bs -> In a0 (l_attrs V b0) -> negb (pa_transferable V a0) || negb (pa_number V a0) = false ->
    forall t t' x, In x (enumerate (l_images V b0)) -> P t -> (do q <- front (snd x); do w <- idxz (pa_vals V a0) (fst x); set_fattr V (pa_name V a0) q w t) = Ok t' -> P t').
  { intros b0 a0 B0 A0 T t t' [i im] Hx Ht E. apply enumerate_in in Hx. cbn [fst snd] in E. apply bind_ok in E as [q [E1 E]]. apply bind_ok in E as [w [E2 E]].
    unfold P in *. rewrite (cell_value_set V _ _ _ _ _ E). rewrite Ht. destruct (beq (pa_name V a0) n && (q =? p)) eqn:C; [|reflexivity]. f_equal.
    apply andb_true_iff in C as [C1 C2]. apply beq_eq in C1. apply Z.eqb_eq in C2. subst q. apply (U b0); [assumption|]. apply orb_false_iff in T as [T1 T2]. apply negb_false_iff in T1, T2.
    destruct im as [|q r']; [discriminate E1|]. cbn in E1. exists a0, i, r'. repeat (split; [assumption|]). split; [now apply idxz_ok|]. now assert (q = p) as <- by congruence. }
  assert (SP : forall b0 a0 s s', In b0 bs -> In a0 (l_attrs V b0) -> P s -> copy_attr V nb b0 s a0 = Ok s' -> P s').
  { intros b0 a0 s s' B0 A0 Hs E. unfold copy_attr in E. destruct (negb (pa_transferable V a0) || negb (pa_number V a0)) eqn:T; [unfold P; now inversion E; subst|]. apply bind_ok in E as [v0 [_ E]].
    revert E. apply foldM_inv; [|unfold P; now apply cell_value_create]. intros t t' x Hx. now apply (ST b0 a0). }
  revert S H. apply (foldM_reach _ I P bs b Hb).
  - intros s s' b0 B0 Hs. apply foldM_inv; [|assumption]. intros t t' a0 A0. apply SA.
  - intros s s' b0 B0 _ Hs. apply foldM_inv; [|assumption]. intros t t' a0 A0. now apply SP.
  - intros s s'. apply (foldM_reach _ I P (l_attrs V b) a G1).
    + intros t t' a0 A0. apply SA.
    + intros t t' a0 A0 _. now apply SP.
    + intros t t' Ht E. unfold copy_attr in E. rewrite G3, G4 in E. cbn [negb orb] in E. apply bind_ok in E as [v0 [_ E]].
      set (J := fun t => cell_value V t n p <> None). assert (Jt : J (create_fattr V (pa_name V a) v0 nb t)) by (unfold J; rewrite G2; now apply created).
      revert Jt E. apply (foldM_reach _ J P _ (e, p :: r)).
      * now apply enumerate_in.
      * intros u u' [i im] _ Hu E. cbn [fst snd] in E. apply bind_ok in E as [q [E1 E]]. apply bind_ok in E as [w [E2 E]]. unfold J in *. rewrite (cell_value_set V _ _ _ _ _ E).
        destruct (cell_value V u n p); [|congruence]. destruct (_ && _); discriminate.
      * intros u u' x Hx _ Hu. apply (ST b a); try assumption. now rewrite G3, G4.
      * intros u u' Hu E. cbn [fst snd front bind] in E. apply bind_ok in E as [w [E2 E]]. assert (w = v) as -> by (apply idxz_ok in E2; congruence).
        unfold P, J in *. rewrite (cell_value_set V _ _ _ _ _ E). destruct (cell_value V u n p); [|congruence]. now rewrite G2, beq_refl, Z.eqb_refl.
Qed.
Print Assumptions C89_cells.

(** ** C90: block names of vertices and cells *)
(** The names listed for a vertex: one per vertex of a block on it, in the order of the blocks; the uuid for a block without name. *)
Definition name_or_uuid {V} (b : bblock V) : bytes := match l_name V b with Some n => n | None => l_uuid V b end.
Definition times (v : Z) (l : list Z) : nat := List.length (filter (Z.eqb v) l).
Definition listed {V} (v : Z) (bs : list (bblock V)) : list bytes := flat_map (fun b => repeat (name_or_uuid b) (times v (l_vertices V b))) bs.
Lemma setz_ok_inv {A} (l : list A) i v l' : setz l i v = Ok l' -> 0 <= i < lenz l /\ l' = upd l (Z.to_nat i) v.
Proof.
  unfold setz, lenz. destruct ((0 <=? i) && (i <? Z.of_nat (List.length l))) eqn:R; intros H; [|discriminate H]. apply andb_true_iff in R as [R1 R2]. apply Z.leb_le in R1. apply Z.ltb_lt in R2. split; [lia|congruence].
Qed.
Lemma repeat_snoc {A} (a : A) n : repeat a n ++ [a] = repeat a (S n).
Proof. induction n as [|n IH]; [reflexivity|]. cbn [repeat app]. now rewrite IH. Qed.
Theorem C90_vertices : forall V nb (bs : list (bblock V)) names, paint_vertices V nb bs = Ok names ->
  List.length names = nb /\ forall v, 0 <= v < Z.of_nat nb -> nthz names v = Some (listed v bs).
Proof.
  intros V nb bs names H. unfold paint_vertices in H.
  assert (K : forall b vs st st', foldM (fun names v => do l <- idxz names v; setz names v (l ++ [block_label V b])) vs st = Ok st' ->
    List.length st' = List.length st /\ forall v l, nthz st v = Some l -> nthz st' v = Some (l ++ repeat (name_or_uuid b) (times v vs))).
  { intros b. induction vs as [|w vs IH]; intros st st' E; [cbn in E; inversion E; subst; split; [reflexivity|]; intros; cbn; now rewrite app_nil_r|].
    cbn [foldM] in E. apply bind_ok in E as [s1 [E1 E]]. apply bind_ok in E1 as [l0 [E1 E2]]. apply idxz_ok in E1. apply setz_ok_inv in E2 as [R ->].
    apply IH in E as [L E]. rewrite upd_length in L. split; [assumption|]. intros v l N. unfold times. cbn [filter].
    rewrite Z.eqb_sym. destruct (Z.eqb_spec w v) as [->|Nv].
    - specialize (E v (l0 ++ [block_label V b])). rewrite nthz_upd, Z.eqb_refl in E by assumption. rewrite (E eq_refl). assert (l0 = l) as -> by congruence. rewrite <- app_assoc. reflexivity.
    - apply E. rewrite nthz_upd by assumption. now destruct (Z.eqb_spec w v). }
  assert (G : forall bs st st', foldM (fun names b => foldM (fun names v => do l <- idxz names v; setz names v (l ++ [block_label V b])) (l_vertices V b) names) bs st = Ok st' ->
    List.length st' = List.length st /\ forall v l, nthz st v = Some l -> nthz st' v = Some (l ++ listed v bs)).
  { clear H. induction bs0 as [|b bs0 IH]; intros st st' E; [cbn in E; inversion E; subst; split; [reflexivity|]; intros; cbn; now rewrite app_nil_r|].
    cbn [foldM] in E. apply bind_ok in E as [s1 [E1 E]]. apply K in E1 as [L1 E1]. apply IH in E as [L2 E]. split; [congruence|]. intros v l N. rewrite (E v _ (E1 v l N)). now rewrite <- app_assoc. }
  apply G in H as [L H]. rewrite repeat_length in L. split; [assumption|]. intros v R. apply (H v []). rewrite nthz_repeat. destruct (Z.leb_spec 0 v), (Z.ltb_spec v (Z.of_nat nb)); try lia. reflexivity.
Qed.
Print Assumptions C90_vertices.
(** A block lists its name once per vertex of its mesh on the vertex of the solid: twice when the mesh is cut there. *)
Theorem C90_once_refuted : exists (bs : list (bblock ExFem)) names, paint_vertices ExFem 1 bs = Ok names /\ List.length bs = 1%nat /\ exists l, nthz names 0 = Some l /\ ~ NoDup l.
Proof.
  exists [mkBblock ExFem (Some (lit "B")) (lit "u") [] [] [0; 0]], [[lit "B"; lit "B"]]. split; [reflexivity|]. split; [reflexivity|]. eexists. split; [reflexivity|].
  intros N. inversion N as [|? ? N1 _]; subst. apply N1. now left.
Qed.
Print Assumptions C90_once_refuted.
(** A cell of exactly one block, which has a name, gets that name. *)
Theorem C90_cells : forall V nb (bs : list (bblock V)) names, paint_polyhedra V nb bs = Ok names ->
  List.length names = nb /\ forall p, 0 <= p < Z.of_nat nb -> exists n, nthz names p = Some n
  /\ ((exists b ps, In b bs /\ l_name V b = Some n /\ In ps (l_images V b) /\ In p ps)
      \/ ((forall b ps, In b bs -> l_name V b <> None -> In ps (l_images V b) -> ~ In p ps) /\ n = lit "No_name")).
Proof.
  intros V nb bs names H. unfold paint_polyhedra in H.
  set (ws := fun b : bblock V => match l_name V b with Some n => map (fun p => (p, n)) (List.concat (l_images V b)) | None => [] end).
  assert (A : forall (n : bytes) ps st st', foldM (fun names p => setz names p n) ps st = Ok st' -> st' = upds (map (fun p : Z => (p, n)) ps) st /\ in_range (List.length st) (map (fun p : Z => (p, n)) ps)).
  { intros n. induction ps as [|p ps IH]; intros st st' E; [cbn in E; inversion E; split; [reflexivity|constructor]|]. cbn [foldM] in E. apply bind_ok in E as [s1 [E1 E]]. apply setz_ok_inv in E1 as [R ->].
    apply IH in E as [-> E]. rewrite upd_length in E. split; [reflexivity|]. cbn [map]. constructor; [exact R|exact E]. }
  assert (A0 : forall ps st st', foldM (fun (names : list bytes) (_ : Z) => Ok names) ps st = Ok st' -> st' = st).
  { induction ps as [|p ps IH]; intros st st' E; cbn in E; [congruence|now apply IH]. }
  assert (B : forall b, forall im st st', foldM (fun names ps => foldM (fun names p => match l_name V b with Some n => setz names p n | None => Ok names end) ps names) im st = Ok st' ->
    let w := match l_name V b with Some n => map (fun p : Z => (p, n)) (List.concat im) | None => [] end in st' = upds w st /\ in_range (List.length st) w).
  { intros b. destruct (l_name V b) as [n|].
    - induction im as [|ps im IH]; intros st st' E; [cbn in E; inversion E; split; [reflexivity|constructor]|]. cbn [foldM] in E. apply bind_ok in E as [s1 [E1 E]]. apply A in E1 as [-> E1].
      apply IH in E as [-> E]. rewrite upds_length in E. cbn [List.concat]. rewrite map_app, upds_app. split; [reflexivity|]. now apply Forall_app.
    - induction im as [|ps im IH]; intros st st' E; [cbn in E; inversion E; split; [reflexivity|constructor]|]. cbn [foldM] in E. apply bind_ok in E as [s1 [E1 E]]. apply A0 in E1 as ->. now apply IH. }
  assert (C : forall bs st st', foldM (fun names b => foldM (fun names ps => foldM (fun names p => match l_name V b with Some n => setz names p n | None => Ok names end) ps names) (l_images V b) names) bs st = Ok st' ->
    st' = upds (flat_map ws bs) st /\ in_range (List.length st) (flat_map ws bs)).
  { clear H. induction bs0 as [|b bs0 IH]; intros st st' E; [cbn in E; inversion E; split; [reflexivity|constructor]|]. cbn [foldM] in E. apply bind_ok in E as [s1 [E1 E]]. apply B in E1 as [-> E1].
    apply IH in E as [-> E]. rewrite upds_length in E. cbn [flat_map]. rewrite upds_app. split; [reflexivity|]. now apply Forall_app. }
  apply C in H. destruct H as [H R]. subst names. split; [now rewrite upds_length, repeat_length|]. intros p Hp.
  destruct (nthz (upds (flat_map ws bs) (repeat (lit "No_name") nb)) p) as [n|] eqn:E.
  - exists n. split; [reflexivity|].
    assert (W : forall b m, In (p, m) (ws b) <-> l_name V b = Some m /\ exists ps, In ps (l_images V b) /\ In p ps).
    { intros b m. unfold ws. destruct (l_name V b) as [k|].
      - rewrite in_map_iff. split.
        + intros [q [Q1 Q2]]. assert (q = p /\ k = m) as [-> ->] by (split; congruence). split; [reflexivity|]. apply in_concat in Q2. exact Q2.
        + intros [Q1 [ps [Q2 Q3]]]. exists p. split; [congruence|]. apply in_concat. eauto.
      - split; [intros []|]. intros [Q _]. discriminate Q. }
    apply nthz_upds in E; [|assumption]. destruct E as [E|[E1 E2]].
    + left. apply in_flat_map in E as [b [E1 E2]]. apply W in E2 as [E2 [ps [E3 E4]]]. eauto 6.
    + right. split; [|rewrite nthz_repeat in E2; destruct (_ && _) in E2; congruence]. intros b ps Hb Hn Hps Q. destruct (l_name V b) as [m|] eqn:Nm; [|congruence].
      apply (E1 m). apply in_flat_map. exists b. split; [assumption|]. apply W. split; [assumption|]. eauto.
  - exfalso. assert (L : List.length (upds (flat_map ws bs) (repeat (lit "No_name") nb)) = nb) by now rewrite upds_length, repeat_length.
    unfold nthz in E. rewrite L in E. destruct (Z.leb_spec 0 p), (Z.ltb_spec p (Z.of_nat nb)); try lia. cbn [andb] in E. apply nth_error_None in E. lia.
Qed.
Print Assumptions C90_cells.

(** The solid given to the FEM writer: same points and tetrahedra; the labels above; the attributes of [C89_cells]. *)
Theorem C90_solid : forall V minus_one s0 facets edges (b : brep V) s, fem_solid V minus_one s0 facets edges b = Ok s ->
  s_points V s = s_points V s0 /\ s_tetras V s = s_tetras V s0
  /\ (exists verts, s_block_vertex V s = Some verts /\ List.length verts = List.length (s_points V s)
      /\ forall v, 0 <= v < lenz (s_points V s) -> nthz verts v = Some (listed v (r_blocks V b)))
  /\ (exists poly, s_block_poly V s = Some poly /\ List.length poly = List.length (s_tetras V s)
      /\ forall p, 0 <= p < lenz (s_tetras V s) -> exists n, nthz poly p = Some n
      /\ ((exists k ps, In k (r_blocks V b) /\ l_name V k = Some n /\ In ps (l_images V k) /\ In p ps)
          \/ ((forall k ps, In k (r_blocks V b) -> l_name V k <> None -> In ps (l_images V k) -> ~ In p ps) /\ n = lit "No_name"))).
Proof.
  intros V m1 s0 facets edges b s H. unfold fem_solid in H. apply bind_ok in H as [l [H1 H]]. apply bind_ok in H as [? [_ H]]. apply bind_ok in H as [poly [H2 H]]. apply bind_ok in H as [verts [H3 H]].
  apply bind_ok in H as [fp [_ H]]. apply bind_ok in H as [ep [_ H]]. inversion H as [Hs]. subst s. cbn [s_points s_tetras s_block_vertex s_block_poly]. split; [reflexivity|]. split; [reflexivity|].
  apply C90_vertices in H3. apply C90_cells in H2. split; [exists verts|exists poly]; (split; [reflexivity|assumption]).
Qed.
Print Assumptions C90_solid.

(** ** Examples *)
Definition ex_surf (name : string) attrs im : bcomp ExFem := mkBcomp ExFem (Some (lit name)) attrs im.
Definition ex_cs : list (bcomp ExFem) := [ex_surf "A" [(APERTURE, [1%Q])] [[0]]; ex_surf "B" [(CONDUCTIVITY, [2%Q; 3%Q]); (APERTURE, [4%Q; (-1)%Q])] [[2]; [3; 1]]].
Example C53_example : paint_infos ExFem (-1)%Q 5 APERTURE ex_cs
  = Ok (mkPainted ExFem (Some [1%Q; (-1)%Q; 4%Q; (-1)%Q; (-1)%Q]) (Some [(-1)%Q; 3%Q; 2%Q; 3%Q; (-1)%Q]) (Some (map lit ["A"; "B"; "B"; "B"; "No_name"])))
  /\ Forall (well_formed ExFem 5) ex_cs.
Proof.
  split; [reflexivity|].
  assert (R : forall f n, (0 <=? f) && (f <? n) = true -> 0 <= f < n) by (intros f n H; apply andb_true_iff in H as [H1 H2]; apply Z.leb_le in H1; apply Z.ltb_lt in H2; lia).
  assert (B : forall im, forallb (forallb (fun f => (0 <=? f) && (f <? 5))) im = true -> Forall (Forall (fun f => 0 <= f < Z.of_nat 5)) im).
  { intros im H. apply Forall_forall. intros fs Hf. apply Forall_forall. intros f Hfs. apply (R f 5). rewrite forallb_forall in H. specialize (H fs Hf). rewrite forallb_forall in H. now apply H. }
  constructor; [|constructor; [|constructor]]; (split; [|apply B; reflexivity]); intros a vs; cbn [ex_surf q_attrs q_images assoc].
  - destruct (beq APERTURE a); [intros H; injection H as <-; reflexivity|intros H; discriminate H].
  - destruct (beq CONDUCTIVITY a); [intros H; injection H as <-; reflexivity|]. destruct (beq APERTURE a); [intros H; injection H as <-; reflexivity|intros H; discriminate H].
Qed.
(** With the surfaces in the other order the aperture of both is painted as well; with a third surface without aperture first, none. *)
Example C53_lost_example : rmap (p_main ExFem) (paint_infos ExFem (-1)%Q 5 APERTURE (ex_surf "C" [] [[4]] :: ex_cs)) = Ok None.
Proof. reflexivity. Qed.
Definition ex_blocks : list (bblock ExFem) :=
  [mkBblock ExFem (Some (lit "Top")) (lit "u1") [mkPattr ExFem (lit "por") true true [5%Q; 6%Q]] [[1]; [0]] [0; 1; 2; 3; 4];
   mkBblock ExFem None (lit "u2") [mkPattr ExFem (lit "id") true false [7%Q]] [[2]] [1; 2; 3; 5]].
(** Cell 2 belongs to a block without the attribute: it gets 5, the first value of the other block. *)
Example C89_example : copy_attrs ExFem 3 ex_blocks [] = Ok [mkFattr ExFem "por" true [6%Q; 5%Q; 5%Q]].
Proof. reflexivity. Qed.
(** The value of another block is not the value of the cell: no block gives it one. *)
Theorem C89_other_block_refuted : exists (bs : list (bblock ExFem)) l' n p v, copy_attrs ExFem 3 bs [] = Ok l' /\ cell_value ExFem l' n p = Some v
  /\ (forall b w, In b bs -> ~ gives ExFem b n p w) /\ exists b ps, In b bs /\ In ps (l_images ExFem b) /\ In p ps.
Proof.
  exists ex_blocks, [mkFattr ExFem "por" true [6%Q; 5%Q; 5%Q]], (lit "por"), 2, 5%Q. split; [exact C89_example|]. split; [reflexivity|]. split.
  - intros b w Hb [a [e [r [H1 [H2 [_ [H3 [_ H4]]]]]]]]. destruct Hb as [<-|[<-|[]]]; cbn in H1.
    + cbn [l_images] in H4. apply nthz_in in H4. destruct H4 as [H4|[H4|[]]]; discriminate H4.
    + destruct H1 as [<-|[]]. discriminate H3.
  - exists (nth 1 ex_blocks (mkBblock ExFem None [] [] [] [])), [2]. split; [right; now left|]. split; now left.
Qed.
Print Assumptions C89_other_block_refuted.
Example C90_example : paint_vertices ExFem 6 ex_blocks = Ok [[lit "Top"]; map lit ["Top"; "u2"]; map lit ["Top"; "u2"]; map lit ["Top"; "u2"]; [lit "Top"]; [lit "u2"]]
  /\ paint_polyhedra ExFem 3 ex_blocks = Ok (map lit ["Top"; "Top"; "No_name"]).
Proof. split; reflexivity. Qed.
