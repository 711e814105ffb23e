(** * Properties C49 and C84: SKUA stratigraphic columns. *)
From Coq Require Import ZArith List Lia Bool Ascii String Permutation.
From Verif Require Import Base Text TextFacts GocadModel TsModel PropsGocad LsoFacts LsoRead SkuaModel.
Import ListNotations.
Local Open Scope string_scope.
Local Open Scope list_scope.
Local Open Scope Z_scope.

(** ** Specification *)
(** An entry top or base of a unit: name of its horizon, and whether the relation is structural. *)
Definition entry (x : xml) : bytes * bool :=
  (strip (child_value (child "name" x)), beq (strip (child_value (child "relation" x))) "structural").
Definition tops (u : xml) : list (bytes * bool) := map entry (children "top" u).
Definition bases (u : xml) : list (bytes * bool) := map entry (children "base" u).
(** The names of the horizons, in the order of the file. *)
Definition mentions (us : list xml) : list bytes := flat_map (fun u => map fst (tops u) ++ map fst (bases u)) us.
(** The list without its repetitions: each name at its first mention. *)
Fixpoint firsts (l : list bytes) : list bytes :=
  match l with [] => [] | n :: r => n :: filter (fun m => negb (beq m n)) (firsts r) end.
(** The structural entries of horizon [n] in the order of the file: true for a top. *)
Definition marked (n : bytes) (l : list (bytes * bool)) : list (bytes * bool) := filter (fun e => beq (fst e) n && snd e) l.
Definition marks (n : bytes) (us : list xml) : list bool :=
  flat_map (fun u => map (fun _ => true) (marked n (tops u)) ++ map (fun _ => false) (marked n (bases u))) us.
Definition contact_of (l : list bool) : contact :=
  match l with [] => Conformal | [true] => Erosion | [false] => Baselap | _ => Discontinuity end.
(** (horizon name, rank of the unit) for each top, resp. base. *)
Fixpoint pairs (part : xml -> list (bytes * bool)) (k : Z) (us : list xml) : list (bytes * Z) :=
  match us with [] => [] | u :: r => map (fun e => (fst e, k)) (part u) ++ pairs part (k + 1) r end.
(** The <unit> elements of the document, and the text of its attribute use_base_names. *)
Definition units_node (doc : xml) : xml := child "units" (child "LocalStratigraphicColumn" (child "UserObjects" doc)).
Definition units_of (doc : xml) : list xml := children "unit" (units_node doc).
(** Relation number i of the stack is between the horizon with the name and the unit of the i-th entry. *)
Definition relation_is (hs : list (bytes * contact)) (r : Z * Z) (e : bytes * Z) : Prop :=
  snd r = snd e /\ exists c, nthz hs (fst r) = Some (fst e, c).

(** ** Facts *)
Lemma rank_of_spec n l : forall i, match rank_of n i l with
  | Some h => (exists c, nthz l (h - i) = Some (n, c)) /\ i <= h
  | None => ~ In n (map fst l) end.
Proof.
  induction l as [|[m c] l IH]; intros i; cbn [rank_of map fst]; [intros []|]. destruct (beq m n) eqn:E.
  - apply beq_eq in E. subst m. rewrite Z.sub_diag. split; [|lia]. now exists c.
  - specialize (IH (i + 1)). destruct (rank_of n (i + 1) l) as [h|].
    + destruct IH as [[c' H1] H2]. split; [|lia]. exists c'. rewrite nthz_cons. destruct (Z.eqb_spec (h - i) 0); [lia|]. now replace (h - i - 1) with (h - (i + 1)) by lia.
    + intros [->|H]; [|now apply IH]. rewrite beq_refl in E. discriminate.
Qed.
Lemma firsts_in n l : In n (firsts l) <-> In n l.
Proof.
  induction l as [|m l IH]; [reflexivity|]. cbn [firsts In]. rewrite filter_In, IH. split.
  - intros [H|[H _]]; auto.
  - intros [H|H]; [now left|]. destruct (beq n m) eqn:E; [apply beq_eq in E; auto|]. right. auto.
Qed.
Lemma firsts_nodup l : NoDup (firsts l).
Proof.
  induction l as [|m l IH]; [constructor|]. cbn [firsts]. constructor; [|now apply NoDup_filter].
  rewrite filter_In. intros [_ H]. rewrite beq_refl in H. discriminate.
Qed.
Lemma firsts_snoc l n : firsts (l ++ [n]) = firsts l ++ filter (fun m => negb (existsb (beq m) l)) [n].
Proof.
  induction l as [|m l IH]; [reflexivity|]. cbn [app firsts]. rewrite IH, filter_app. f_equal. f_equal.
  cbn [filter existsb]. destruct (existsb (beq n) l); cbn [negb]; destruct (beq n m) eqn:E; cbn; rewrite ?E; reflexivity.
Qed.

(** Processing of a flat list of entries: (top?, name, structural, unit). *)
Record event := mkEv { v_top : bool; v_name : bytes; v_mark : bool; v_unit : Z }.
Definition hmarks (n : bytes) (l : list event) : list bool := map v_top (filter (fun e => beq (v_name e) n && v_mark e) l).
Definition hmap (l : list event) : list (bytes * contact) :=
  map (fun n => (n, contact_of (hmarks n l))) (firsts (map v_name l)).
Definition apart (b : bool) (l : list event) : list (bytes * Z) :=
  map (fun e => (v_name e, v_unit e)) (filter (fun e => Bool.eqb (v_top e) b) l).
Definition inv (s : stack) (l : list event) : Prop :=
  k_horizons s = hmap l /\ Forall2 (relation_is (k_horizons s)) (k_above s) (apart true l)
  /\ Forall2 (relation_is (k_horizons s)) (k_under s) (apart false l).
Definition grows (a b : list (bytes * contact)) : Prop := forall h n c, nthz a h = Some (n, c) -> exists c', nthz b h = Some (n, c').
Lemma grows_rel a b l m : grows a b -> Forall2 (relation_is a) l m -> Forall2 (relation_is b) l m.
Proof.
  intros G H. induction H as [|r e l m [H1 [c H2]] _ IH]; constructor; [|assumption].
  split; [assumption|]. eapply G; eassumption.
Qed.
Lemma set_contact_nth h f l : forall n c, nthz l h = Some (n, c) -> NoDup (map fst l) ->
  set_contact h f l = map (fun e => if beq (fst e) n then (fst e, f (snd e)) else e) l.
Proof.
  revert h. induction l as [|[m d] l IH]; intros h n c H D.
  - exfalso. apply nthz_range in H. unfold lenz in H. cbn in H. lia.
  - rewrite nthz_cons in H. cbn [set_contact map fst snd]. inversion D as [|? ? D1 D2]; subst.
    destruct (Z.eqb_spec h 0) as [E|E].
    + injection H as -> ->. rewrite beq_refl. f_equal. rewrite <- (map_id l) at 1. apply map_ext_in.
      intros [x y] Hx. cbn [fst]. destruct (beq x n) eqn:Eb; [|reflexivity]. apply beq_eq in Eb. subst x.
      exfalso. apply D1. now apply (in_map fst) in Hx.
    + rewrite (IH (h - 1) n c H D2). destruct (beq m n) eqn:Eb; [|reflexivity]. apply beq_eq in Eb. subst m.
      exfalso. apply D1. apply nthz_in in H. now apply (in_map fst) in H.
Qed.
Lemma hmap_names l : map fst (hmap l) = firsts (map v_name l).
Proof. unfold hmap. rewrite map_map. cbn [fst]. apply map_id. Qed.
Lemma hmarks_snoc n l e : hmarks n (l ++ [e]) = hmarks n l ++ (if beq (v_name e) n && v_mark e then [v_top e] else []).
Proof. unfold hmarks. rewrite filter_app, map_app. cbn [filter]. now destruct (beq (v_name e) n && v_mark e). Qed.
Lemma hmarks_new n l : ~ In n (map v_name l) -> hmarks n l = [].
Proof.
  intros H. unfold hmarks. induction l as [|e l IH]; [reflexivity|]. cbn [filter]. destruct (beq (v_name e) n) eqn:E.
  - apply beq_eq in E. exfalso. apply H. now left.
  - cbn. apply IH. intros Q. apply H. now right.
Qed.
Lemma existsb_in n (l : list bytes) : existsb (beq n) l = true <-> In n l.
Proof. rewrite existsb_exists. split; [intros [m [H E]]; apply beq_eq in E; now subst|]. intros H. exists n. split; [assumption|apply beq_refl]. Qed.
Lemma contact_snoc l b : contact_of (l ++ [b]) = (if b then top_contact else base_contact) (contact_of l).
Proof. destruct l as [|[] [|? ?]], b; reflexivity. Qed.
(** The horizons after one more entry. *)
Definition step_horizons (e : event) (hs : list (bytes * contact)) : list (bytes * contact) :=
  let hs := if existsb (beq (v_name e)) (map fst hs) then hs else hs ++ [(v_name e, Conformal)] in
  if v_mark e then map (fun x => if beq (fst x) (v_name e) then (fst x, (if v_top e then top_contact else base_contact) (snd x)) else x) hs
  else hs.
Lemma step_hmap e l : step_horizons e (hmap l) = hmap (l ++ [e]).
Proof.
  assert (K : (if existsb (beq (v_name e)) (map fst (hmap l)) then hmap l else hmap l ++ [(v_name e, Conformal)])
    = map (fun n => (n, contact_of (hmarks n l))) (firsts (map v_name (l ++ [e])))).
  { rewrite hmap_names, map_app. cbn [map]. rewrite firsts_snoc, map_app. cbn [filter].
    destruct (existsb (beq (v_name e)) (firsts (map v_name l))) eqn:E1, (existsb (beq (v_name e)) (map v_name l)) eqn:E2; cbn [negb].
    - now rewrite app_nil_r.
    - exfalso. apply existsb_in in E1. rewrite firsts_in in E1. apply existsb_in in E1. congruence.
    - exfalso. apply existsb_in in E2. rewrite <- firsts_in in E2. apply existsb_in in E2. congruence.
    - cbn [map]. rewrite hmarks_new; [reflexivity|]. intros Q. apply existsb_in in Q. congruence. }
  unfold step_horizons. rewrite K. unfold hmap. destruct (v_mark e) eqn:M.
  - rewrite map_map. cbn [fst snd]. apply map_ext. intros n. rewrite hmarks_snoc, M, andb_true_r.
    destruct (beq n (v_name e)) eqn:E.
    + apply beq_eq in E. subst n. rewrite beq_refl, contact_snoc. reflexivity.
    + destruct (beq (v_name e) n) eqn:E'; [apply beq_eq in E'; subst n; rewrite beq_refl in E; discriminate|]. now rewrite app_nil_r.
  - apply map_ext. intros n. now rewrite hmarks_snoc, M, andb_false_r, app_nil_r.
Qed.
Lemma step_grows e hs : grows hs (step_horizons e hs).
Proof.
  intros h n c H. unfold step_horizons.
  set (hs' := if existsb _ _ then hs else _). assert (H' : nthz hs' h = Some (n, c)) by (unfold hs'; destruct (existsb _ _); [assumption|now apply nthz_app_l]).
  destruct (v_mark e); [|now exists c]. rewrite nthz_map, H'. cbn. destruct (beq n (v_name e)); eexists; reflexivity.
Qed.
(** One entry of either kind. *)
Definition read_entry (e : event) (s : stack) : stack :=
  let '(s, h) := horizon_for (v_name e) s in
  let s := if v_top e then mkStack (k_title s) (k_units s) (k_horizons s) (k_above s ++ [(h, v_unit e)]) (k_under s)
           else mkStack (k_title s) (k_units s) (k_horizons s) (k_above s) (k_under s ++ [(h, v_unit e)]) in
  if v_mark e then with_contact h (if v_top e then top_contact else base_contact) s else s.
Lemma read_entry_horizons e s : NoDup (map fst (k_horizons s)) ->
  exists h, k_horizons (read_entry e s) = step_horizons e (k_horizons s)
  /\ relation_is (k_horizons (read_entry e s)) (h, v_unit e) (v_name e, v_unit e)
  /\ k_above (read_entry e s) = k_above s ++ (if v_top e then [(h, v_unit e)] else [])
  /\ k_under (read_entry e s) = k_under s ++ (if v_top e then [] else [(h, v_unit e)])
  /\ k_units (read_entry e s) = k_units s /\ k_title (read_entry e s) = k_title s.
Proof.
  intros D. unfold read_entry, horizon_for. pose proof (rank_of_spec (v_name e) (k_horizons s) 0) as R.
  assert (G : forall s' h c, nthz (k_horizons s') h = Some (v_name e, c) -> NoDup (map fst (k_horizons s')) ->
    k_horizons s' = (if existsb (beq (v_name e)) (map fst (k_horizons s)) then k_horizons s else k_horizons s ++ [(v_name e, Conformal)]) ->
    k_above s' = k_above s -> k_under s' = k_under s -> k_units s' = k_units s -> k_title s' = k_title s ->
    let r := if v_mark e then with_contact h (if v_top e then top_contact else base_contact)
       (if v_top e then mkStack (k_title s') (k_units s') (k_horizons s') (k_above s' ++ [(h, v_unit e)]) (k_under s')
        else mkStack (k_title s') (k_units s') (k_horizons s') (k_above s') (k_under s' ++ [(h, v_unit e)]))
       else (if v_top e then mkStack (k_title s') (k_units s') (k_horizons s') (k_above s' ++ [(h, v_unit e)]) (k_under s')
        else mkStack (k_title s') (k_units s') (k_horizons s') (k_above s') (k_under s' ++ [(h, v_unit e)])) in
    k_horizons r = step_horizons e (k_horizons s) /\ relation_is (k_horizons r) (h, v_unit e) (v_name e, v_unit e)
    /\ k_above r = k_above s ++ (if v_top e then [(h, v_unit e)] else [])
    /\ k_under r = k_under s ++ (if v_top e then [] else [(h, v_unit e)])
    /\ k_units r = k_units s /\ k_title r = k_title s).
  { intros s' h c H1 H2 H3 H4 H5 H6 H7. cbv zeta.
    assert (K : forall f, set_contact h f (k_horizons s') = map (fun x => if beq (fst x) (v_name e) then (fst x, f (snd x)) else x) (k_horizons s'))
      by (intros f; eapply set_contact_nth; eassumption).
    assert (K2 : forall f, exists c', nthz (set_contact h f (k_horizons s')) h = Some (v_name e, c')).
    { intros f. rewrite K, nthz_map, H1. cbn. rewrite beq_refl. now eexists. }
    unfold step_horizons. destruct (v_mark e), (v_top e); cbn [with_contact k_horizons k_above k_under k_units k_title];
      rewrite ?K, ?app_nil_r, ?H4, ?H5; rewrite <- ?H3; repeat split; cbn [fst snd]; auto; try (now exists c);
      rewrite <- K; apply K2. }
  destruct (rank_of (v_name e) 0 (k_horizons s)) as [h|].
  - destruct R as [[c R] _]. rewrite Z.sub_0_r in R. exists h. cbv zeta beta iota.
    assert (E : existsb (beq (v_name e)) (map fst (k_horizons s)) = true).
    { apply existsb_in. apply nthz_in in R. now apply (in_map fst) in R. }
    apply (G s h c); try reflexivity; try assumption. now rewrite E.
  - assert (E : existsb (beq (v_name e)) (map fst (k_horizons s)) = false).
    { destruct (existsb _ _) eqn:Q; [|reflexivity]. apply existsb_in in Q. now apply R in Q. }
    exists (lenz (k_horizons s)).
    apply (G (mkStack (k_title s) (k_units s) (k_horizons s ++ [(v_name e, Conformal)]) (k_above s) (k_under s)) _ Conformal); try reflexivity.
    + cbn [k_horizons]. rewrite nthz_snoc. right. auto.
    + cbn [k_horizons]. rewrite map_app. cbn [map fst]. apply (Permutation_NoDup (Permutation_cons_append _ _)). now constructor.
    + cbn [k_horizons]. now rewrite E.
Qed.

Lemma read_entry_inv e s l : inv s l -> inv (read_entry e s) (l ++ [e]).
Proof.
  intros [I1 [I2 I3]].
  assert (D : NoDup (map fst (k_horizons s))) by (rewrite I1, hmap_names; apply firsts_nodup).
  destruct (read_entry_horizons e s D) as [h [H1 [H2 [H3 [H4 _]]]]].
  assert (G : grows (k_horizons s) (k_horizons (read_entry e s))) by (rewrite H1; apply step_grows).
  split; [now rewrite H1, I1, step_hmap|]. unfold apart in *. rewrite H3, H4, !filter_app, !map_app. cbn [filter].
  split; (apply Forall2_app; [eapply grows_rel; eassumption|]); destruct (v_top e); cbn; auto.
Qed.
Lemma read_entries es : forall s l, inv s l -> inv (fold_left (fun s e => read_entry e s) es s) (l ++ es)
  /\ k_units (fold_left (fun s e => read_entry e s) es s) = k_units s
  /\ k_title (fold_left (fun s e => read_entry e s) es s) = k_title s.
Proof.
  induction es as [|e es IH]; intros s l I; cbn [fold_left]; [now rewrite app_nil_r|].
  destruct (IH _ _ (read_entry_inv e s l I)) as [J1 [J2 J3]]. rewrite <- app_assoc in J1. split; [exact J1|].
  assert (D : NoDup (map fst (k_horizons s))) by (rewrite (proj1 I), hmap_names; apply firsts_nodup).
  destruct (read_entry_horizons e s D) as [h [_ [_ [_ [_ [H5 H6]]]]]]. now rewrite J2, J3.
Qed.
(** The entries of a unit and of the file. *)
Definition events_of (k : Z) (u : xml) : list event :=
  map (fun e => mkEv true (fst e) (snd e) k) (tops u) ++ map (fun e => mkEv false (fst e) (snd e) k) (bases u).
Fixpoint events (k : Z) (us : list xml) : list event := match us with [] => [] | u :: r => events_of k u ++ events (k + 1) r end.
Lemma fold_left_map {A B S} (f : S -> B -> S) (g : A -> B) l : forall s, fold_left f (map g l) s = fold_left (fun s a => f s (g a)) l s.
Proof. induction l as [|a l IH]; intros s; [reflexivity|]. cbn. apply IH. Qed.
Definition with_unit (n : bytes) (s : stack) : stack := mkStack (k_title s) (k_units s ++ [n]) (k_horizons s) (k_above s) (k_under s).
Lemma read_unit_entries s x : read_unit s x
  = fold_left (fun s e => read_entry e s) (events_of (lenz (k_units s)) x) (with_unit (strip (child_value (child "name" x))) s).
Proof.
  unfold read_unit, events_of, tops, bases. rewrite fold_left_app, !fold_left_map. cbv zeta. fold (with_unit (strip (child_value (child "name" x))) s).
  reflexivity.
Qed.
Lemma read_units us : forall s l, inv s l ->
  inv (fold_left read_unit us s) (l ++ events (lenz (k_units s)) us)
  /\ k_units (fold_left read_unit us s) = k_units s ++ map (fun u => strip (child_value (child "name" u))) us
  /\ k_title (fold_left read_unit us s) = k_title s.
Proof.
  induction us as [|u us IH]; intros s l I; cbn [fold_left events map]; [now rewrite !app_nil_r|].
  rewrite read_unit_entries.
  assert (I' : inv (with_unit (strip (child_value (child "name" u))) s) l) by exact I.
  destruct (read_entries (events_of (lenz (k_units s)) u) _ _ I') as [J1 [J2 J3]].
  destruct (IH _ _ J1) as [L1 [L2 L3]]. rewrite J2 in L1, L2. cbn [with_unit k_units] in L1, L2.
  rewrite lenz_app, <- app_assoc in L1. rewrite <- app_assoc in L2. split; [exact L1|]. split; [exact L2|]. now rewrite L3, J3.
Qed.
Lemma events_names us : forall k, map v_name (events k us) = mentions us.
Proof.
  induction us as [|u us IH]; intros k; [reflexivity|]. cbn [events mentions flat_map]. fold (mentions us). unfold events_of.
  now rewrite !map_app, !map_map, IH.
Qed.
Lemma events_marks n us : forall k, hmarks n (events k us) = marks n us.
Proof.
  induction us as [|u us IH]; intros k; [reflexivity|]. cbn [events marks flat_map]. fold (marks n us). rewrite <- (IH (k + 1)).
  unfold hmarks at 1. unfold events_of. rewrite !filter_app, !map_app. fold (hmarks n (events (k + 1) us)). f_equal. f_equal.
  - unfold marked. induction (tops u) as [|e l IHl]; [reflexivity|]. cbn. destruct (beq (fst e) n && snd e); cbn; now rewrite IHl.
  - unfold marked. induction (bases u) as [|e l IHl]; [reflexivity|]. cbn. destruct (beq (fst e) n && snd e); cbn; now rewrite IHl.
Qed.
Lemma apart_app b l m : apart b (l ++ m) = apart b l ++ apart b m.
Proof. unfold apart. now rewrite filter_app, map_app. Qed.
Lemma events_apart us : forall k, apart true (events k us) = pairs tops k us /\ apart false (events k us) = pairs bases k us.
Proof.
  induction us as [|u us IH]; intros k; [auto|]. cbn [events pairs]. unfold events_of. rewrite !apart_app.
  destruct (IH (k + 1)) as [-> ->].
  assert (K1 : forall b l, apart b (map (fun e => mkEv b (fst e) (snd e) k) l) = map (fun e => (fst e, k)) l).
  { intros b l. unfold apart. induction l as [|e l IHl]; [reflexivity|]. cbn. rewrite Bool.eqb_reflx. cbn. now rewrite IHl. }
  assert (K2 : forall b l, apart b (map (fun e => mkEv (negb b) (fst e) (snd e) k) l) = []).
  { intros b l. unfold apart. induction l as [|e l IHl]; [reflexivity|]. cbn. destruct b; cbn; exact IHl. }
  rewrite !K1. pose proof (K2 true (bases u)) as Q1. pose proof (K2 false (tops u)) as Q2. cbn [negb] in Q1, Q2. rewrite Q1, Q2, app_nil_r. auto.
Qed.

Lemma starts_with_split p : forall l, starts_with l p = true -> exists r, l = p ++ r.
Proof.
  induction p as [|c p IH]; intros l H; [now exists l|]. destruct l as [|d l]; [discriminate H|]. cbn in H.
  apply andb_true_iff in H as [H1 H2]. apply Ascii.eqb_eq in H1. subst d. destruct (IH l H2) as [r ->]. now exists r.
Qed.

(** ** C49 *)
(** One unit per entry in order; one horizon per distinct name, in the order of first mention, with the contact given by
    its structural mentions; the relations are those of the entries, in order. *)
Theorem C49_horizons_and_contacts : forall doc s, read_stack doc = Ok s ->
  k_title s = strip (child_value (child "name" (child "LocalStratigraphicColumn" (child "UserObjects" doc))))
  /\ k_units s = map (fun u => strip (child_value (child "name" u))) (units_of doc)
  /\ NoDup (map fst (k_horizons s))
  /\ (forall n, In n (map fst (k_horizons s)) <-> In n (mentions (units_of doc)))
  /\ map fst (k_horizons s) = firsts (mentions (units_of doc))
  /\ (forall n c, In (n, c) (k_horizons s) -> c = contact_of (marks n (units_of doc)))
  /\ Forall2 (relation_is (k_horizons s)) (k_above s) (pairs tops 0 (units_of doc))
  /\ Forall2 (relation_is (k_horizons s)) (k_under s) (pairs bases 0 (units_of doc)).
Proof.
  intros doc s H. unfold read_stack in H. fold (units_node doc) in H. cbv zeta in H. destruct (is_bool _) in H; [|discriminate H].
  fold (units_of doc) in H.
  assert (I : forall n, inv (mkStack n [] [] [] []) []) by (intros n; repeat split; constructor).
  destruct (read_units (units_of doc) _ _ (I (strip (child_value (child "name" (child "LocalStratigraphicColumn" (child "UserObjects" doc)))))))
    as [[J1 [J2 J3]] [J4 J5]].
  change (lenz (k_units (mkStack (strip (child_value (child "name" (child "LocalStratigraphicColumn" (child "UserObjects" doc))))) [] [] [] []))) with 0 in *.
  cbn [app k_units] in J1, J2, J3, J4.
  match type of H with Ok ?x = Ok _ => assert (s = x) as -> by congruence end. clear H.
  rewrite (proj1 (events_apart (units_of doc) 0)) in J2. rewrite (proj2 (events_apart (units_of doc) 0)) in J3.
  assert (N : map fst (hmap (events 0 (units_of doc))) = firsts (mentions (units_of doc))) by now rewrite hmap_names, events_names.
  split; [exact J5|]. split; [exact J4|]. rewrite J1 in J2, J3. rewrite J1, N. split; [apply firsts_nodup|]. split; [intros n; apply firsts_in|].
  split; [reflexivity|]. split; [|split; [exact J2|exact J3]].
  intros n c Hn. unfold hmap in Hn. apply in_map_iff in Hn. destruct Hn as [m [E _]]. injection E as -> <-. now rewrite events_marks.
Qed.
Print Assumptions C49_horizons_and_contacts.
(** The same character, or a capital letter and its small letter (32 further in ASCII) *)
Definition same_letter (c d : ascii) : Prop :=
  c = d \/ (65 <= nat_of_ascii c <= 90)%nat /\ nat_of_ascii d = (nat_of_ascii c + 32)%nat.
(** The words for true and false, in any case *)
Definition boolean_word (t : bytes) : Prop :=
  exists w, In w (map lit ["true"; "t"; "yes"; "y"; "1"; "false"; "f"; "no"; "n"; "0"]) /\ Forall2 same_letter t w.
Lemma lower_same c d : ~ (65 <= nat_of_ascii d <= 90)%nat -> lower c = d <-> same_letter c d.
Proof.
  intros Hd. unfold lower, same_letter. cbv zeta.
  destruct (Nat.leb_spec 65 (nat_of_ascii c)); destruct (Nat.leb_spec (nat_of_ascii c) 90); cbn [andb].
  - split.
    + intros <-. right. split; [lia|]. apply nat_ascii_embedding. lia.
    + intros [->|[_ E]]; [lia|]. rewrite <- E. apply ascii_nat_embedding.
  - split; [now left|]. intros [E|[E _]]; [assumption|lia].
  - split; [now left|]. intros [E|[E _]]; [assumption|lia].
  - split; [now left|]. intros [E|[E _]]; [assumption|lia].
Qed.
Lemma is_bool_word t : is_bool t = true <-> boolean_word t.
Proof.
  unfold is_bool, boolean_word. rewrite existsb_exists.
  assert (L : forall w, In w (map lit ["true"; "t"; "yes"; "y"; "1"; "false"; "f"; "no"; "n"; "0"]) ->
              Forall (fun d => ~ (65 <= nat_of_ascii d <= 90)%nat) w).
  { cbn [map]. intros w H. repeat (destruct H as [<-|H]; [repeat (apply Forall_cons; [vm_compute; lia|]); apply Forall_nil|]). contradiction. }
  assert (G : forall w t, Forall (fun d => ~ (65 <= nat_of_ascii d <= 90)%nat) w -> map lower t = w <-> Forall2 same_letter t w).
  { clear. induction w as [|d w IH]; intros [|c t] H; cbn [map].
    - split; constructor.
    - split; [discriminate|inversion 1].
    - split; [discriminate|inversion 1].
    - apply Forall_cons_iff in H as [H1 H2]. split.
      + intros E. assert (lower c = d) by congruence. assert (map lower t = w) by congruence.
        constructor; [now apply lower_same|now apply IH].
      + intros E. inversion E; subst. f_equal; [now apply lower_same|now apply IH]. }
  split; intros [w [H E]]; exists w; (split; [assumption|]).
  - apply beq_eq in E. apply G; [now apply L|assumption].
  - apply G in E; [|now apply L]. rewrite E. apply beq_refl.
Qed.
(** The file is read iff the attribute use_base_names is a word for true or false; its value is not used. *)
Theorem C49_read_iff : forall doc, (exists s, read_stack doc = Ok s) <-> boolean_word (attribute "use_base_names" (units_node doc)).
Proof.
  intros doc. rewrite <- is_bool_word. unfold read_stack. fold (units_node doc). cbv zeta. destruct (is_bool _); split; try (intros; eauto; fail).
  - intros [s H]. discriminate H.
  - intros H. discriminate H.
Qed.
Print Assumptions C49_read_iff.

Definition tag (t : bytes) (l : list xml) : xml := Element t [] l.
Definition ex_entry (t n r : bytes) : xml := tag t [tag "name" [PCData n]; tag "relation" [PCData r]].
(** Four units; "a" is marked once as top, "b" twice, "c" once as base, "d" never. *)
Definition ex_doc : xml := tag [] [tag "UserObjects" [tag "LocalStratigraphicColumn" [tag "name" [PCData " col "];
  Element "units" [(lit "use_base_names", lit "False")] [
    tag "unit" [tag "name" [PCData "u0"]; ex_entry "base" "a" "stratigraphic"];
    tag "unit" [tag "name" [PCData "u1"]; ex_entry "top" " a " "structural"; ex_entry "base" "b" "structural "];
    tag "unit" [tag "name" [PCData "u2"]; ex_entry "base" "c" "structural"; ex_entry "top" "b" "structural"];
    tag "unit" [tag "name" [PCData "u3"]; ex_entry "top" "c" "stratigraphic"; ex_entry "base" "d" "Structural"]]]]].
Example C49_case : read_stack ex_doc = Ok (mkStack "col" (map lit ["u0"; "u1"; "u2"; "u3"])
  [(lit "a", Erosion); (lit "b", Discontinuity); (lit "c", Baselap); (lit "d", Conformal)]
  [(0, 1); (1, 2); (2, 3)] [(0, 0); (1, 1); (2, 2); (3, 3)]).
Proof. vm_compute. reflexivity. Qed.

(** What the helpers of the statement read in a document: the text of an element is its first text, whatever elements come before; the element
    with a tag is the first one; the value of an attribute is that of its first occurrence. *)
Definition text_is (x : xml) (t : bytes) : Prop :=
  (exists before after, kids x = before ++ PCData t :: after /\ forall u, ~ In (PCData u) before) \/ (t = [] /\ forall u, ~ In (PCData u) (kids x)).
Definition first_child (t : bytes) (x c : xml) : Prop :=
  (exists before after a l, kids x = before ++ c :: after /\ c = Element t a l /\ forall a' l', ~ In (Element t a' l') before) \/
  (c = Element [] [] [] /\ forall a l, ~ In (Element t a l) (kids x)).
Lemma first_text_ok l : (exists before after, l = before ++ PCData (first_text l) :: after /\ forall u, ~ In (PCData u) before) \/ (first_text l = [] /\ forall u, ~ In (PCData u) l).
Proof.
  induction l as [|[t|g a k] l IH]; [right; split; [reflexivity|intros u []]|left; exists [], l; split; [reflexivity|intros u []]|]. cbn [first_text].
  destruct IH as [[b [r [E H]]]|[E H]]; [left|right].
  - exists (Element g a k :: b), r. split; [cbn [app]; now rewrite <- E|]. intros u [X|X]; [discriminate|exact (H u X)].
  - split; [assumption|]. intros u [X|X]; [discriminate|exact (H u X)].
Qed.
Theorem C49_texts : (forall x, text_is x (child_value x)) /\ (forall t x, first_child t x (child t x)).
Proof.
  split; [intros x; apply first_text_ok|]. intros t x. unfold first_child, child, children. generalize (kids x) as k.
  induction k as [|y k IH]; [right; split; [reflexivity|intros a l []]|]. cbn [filter]. destruct (has_tag t y) eqn:E.
  - left. cbn [hd]. destruct y as [u|g a l]; [discriminate|]. cbn [has_tag] in E. apply beq_eq in E. subst g. exists [], k, a, l. split; [reflexivity|]. split; [reflexivity|]. intros a' l' [].
  - assert (Ny : forall a l, y <> Element t a l) by (intros a l ->; cbn [has_tag] in E; rewrite beq_refl in E; discriminate).
    destruct IH as [[b [r [a [l [E1 [E2 E3]]]]]]|[E1 E2]]; [left|right].
    + exists (y :: b), r, a, l. split; [cbn [app]; now rewrite E1 at 1|]. split; [assumption|]. intros a' l' [X|X]; [exact (Ny _ _ X)|exact (E3 _ _ X)].
    + split; [assumption|]. intros a l [X|X]; [exact (Ny _ _ X)|exact (E2 _ _ X)].
Qed.
Print Assumptions C49_texts.

(** ** C84: which files are recognised *)
(** A file is recognised iff some line starts with the element indented by exactly one space. *)
Definition line_of (l text : bytes) : Prop := In l (pending (open_text text)).
Theorem C84_recognised_iff : forall text,
  stack_loadable text = true <-> exists r, line_of (lit " <LocalStratigraphicColumn" ++ r) text.
Proof.
  intros text. unfold stack_loadable. rewrite loadable_iff. split.
  - intros [l [H S]]. apply starts_with_split in S as [r ->]. now exists r.
  - intros [r H]. eexists. split; [exact H|]. apply starts_with_app.
Qed.
Print Assumptions C84_recognised_iff.
(** So the same document indented by two spaces, or not at all, is refused. *)
Definition column_lines (indent : bytes) : list bytes :=
  [lit "<UserObjects>"; indent ++ lit "<LocalStratigraphicColumn>"; lit "</LocalStratigraphicColumn>"; lit "</UserObjects>"].
Theorem C84_any_indentation_refuted : exists indent, strip indent = [] /\ stack_loadable (unlines (column_lines indent)) = false.
Proof. exists (lit "  "). split; vm_compute; reflexivity. Qed.
Print Assumptions C84_any_indentation_refuted.
Example C84_case : stack_loadable (unlines (column_lines " ")) = true /\ stack_loadable (unlines (column_lines "")) = false.
Proof. split; vm_compute; reflexivity. Qed.
