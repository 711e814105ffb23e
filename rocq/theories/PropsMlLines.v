(** * Properties of the corners and lines of a loaded .ml model: C44, C75-C77 *)
From Coq Require Import List ZArith Bool Lia Permutation.
From Verif Require Import Base GocadModel TsFacts MlModel MlFacts MlLines MlLinesFacts.
Import ListNotations.
Local Open Scope list_scope.
Local Open Scope Z_scope.

(** ** C44: a line met once is a boundary, a line met twice is internal *)
(** [l] is the list of the lines met along the borders of a surface (with the vertices of the
    surface along each), in any order and with any numbering of the lines. *)
Definition times_met (x : Z) (l : list (Z * list Z)) : nat := count_occ Z.eq_dec (map fst l) x.

(** The line of largest number is not met three, five, … times (its last meeting would be lost,
    C44_relations_exact in PropsMlRelations.v) *)
Definition last_kept (l : list (Z * list Z)) : Prop :=
  forall x, (forall y, In y (map fst l) -> y <= x) -> ~ (Nat.Odd (times_met x l) /\ (3 <= times_met x l)%nat).
Theorem C44_line_relations_partial : forall l : list (Z * list Z),
  (2 <= List.length l)%nat -> (forall x, (times_met x l <= 2)%nat) ->
  NoDup (map fst (relations (surface_events l))) /\
  (forall x, In (x, false) (relations (surface_events l)) <-> times_met x l = 1%nat) /\
  (forall x, In (x, true) (relations (surface_events l)) <-> times_met x l = 2%nat).
Proof.
  intros l Hl Hm. rewrite relations_events by assumption. pose proof (sort_perm (map fst l)) as P.
  destruct (finish_spec _ _ (le_n _) (sort_sorted (map fst l))) as [ND SP].
  { intros x. rewrite (cnt_perm _ _ _ P). apply Hm. }
  split; [assumption|]. unfold times_met. split; intros x; rewrite SP, (cnt_perm _ _ _ P); reflexivity.
Qed.
Print Assumptions C44_line_relations_partial.
Example C44_example :
  let l := [(5, [0; 1]); (3, [1; 2]); (5, [2; 3]); (4, [3; 0])] in
  relations (surface_events l) = [(3, false); (4, false); (5, true)] /\
  (2 <= List.length l)%nat /\ (forall x, (times_met x l <= 2)%nat).
Proof.
  split; [reflexivity|]. split; [simpl; lia|]. intros x. unfold times_met. cbn [map fst count_occ].
  repeat (destruct (Z.eq_dec _ _)); lia.
Qed.

(** The full statement is false when the surface has a single border line (a closed line, with one
    corner): no relation is created. *)
Definition each_line_related : Prop := forall l : list (Z * list Z),
  (forall x, (times_met x l <= 2)%nat) ->
  forall x, times_met x l = 1%nat -> In (x, false) (relations (surface_events l)).
Theorem C44_single_line_refuted : ~ each_line_related.
Proof.
  intros H. refine (H [(0, [0; 1; 2; 0])] _ 0 eq_refl).
  intros x. unfold times_met. cbn [map fst count_occ]. destruct (Z.eq_dec 0 x); lia.
Qed.
Print Assumptions C44_single_line_refuted.

(** Followed to the end of the load: a triangle whose three edges are its border, with one corner.
    The line is made internal to the surface, which is then split along it. *)
Definition triangle : LSurf Z := mkLSurf Z [10; 11; 12] [(0, 1); (1, 2); (2, 0)] [[(2, 0); (1, 2); (0, 1)]].
Theorem C44_single_line_internal_refuted : exists (s : LSurf Z) bstones borders cs l uv,
  build_corners_lines Z Z.eqb [s] bstones borders = Ok (cs, [l], [(uv, [(0, true)], true)]) /\
  ln_points Z l = [10; 12; 11; 10].
Proof.
  exists triangle, [(0, 0)], [(0, (0, 2))]. eexists. eexists. eexists. split; [vm_compute; reflexivity|]. reflexivity.
Qed.
Print Assumptions C44_single_line_internal_refuted.
(** The same triangle with two corners: both lines are boundaries and nothing is split. *)
Example C44_two_lines :
  match build_corners_lines Z Z.eqb [triangle] [(0, 0); (0, 1)] [(0, (0, 2)); (0, (1, 0))] with
  | Ok (cs, ls, [(uv, rel, split)]) => (rel, split, map (ln_points Z) ls) = ([(0, false); (1, false)], false, [[10; 12; 11]; [11; 10]])
  | _ => False
  end.
Proof. vm_compute. reflexivity. Qed.

(** A surface with a hole: the exporter only writes the corners of the first loop (C41), the lines
    of the hole come from the neighbouring surface, and they are made internal to the surface with
    the hole although they are on its border. *)
Definition ring : LSurf Z :=
  mkLSurf Z [0; 1; 2; 3; 4; 5]
    [(0, 1); (1, 4); (4, 0); (1, 2); (2, 5); (5, 1); (2, 0); (0, 3); (3, 2); (0, 4); (4, 3); (3, 0);
     (1, 5); (5, 4); (4, 1); (2, 3); (3, 5); (5, 2)]
    [[(2, 0); (1, 2); (0, 1)]; [(4, 3); (5, 4); (3, 5)]].
Definition plug : LSurf Z := mkLSurf Z [3; 4; 5] [(0, 1); (1, 2); (2, 0)] [[(2, 0); (1, 2); (0, 1)]].
Theorem C44_hole_internal_refuted : exists cs ls uv0 uv1 rel1,
  build_corners_lines Z Z.eqb [ring; plug]
    [(0, 0); (0, 1); (1, 0); (1, 1)]
    [(0, (0, 2)); (0, (1, 0)); (1, (0, 2)); (1, (1, 0))]
  = Ok (cs, ls, [(uv0, [(0, false); (1, false); (3, true); (2, true)], true); (uv1, rel1, false)]) /\
  map (ln_points Z) ls = [[0; 2; 1]; [1; 0]; [3; 5; 4]; [4; 3]] /\ rel1 = [(2, false); (3, false)].
Proof. do 5 eexists. split; [vm_compute; reflexivity|]. split; reflexivity. Qed.
Print Assumptions C44_hole_internal_refuted.

(** ** C75: the lines of a loop cut it at its corners *)
(** The border edges of a loop given by its vertices, in the order met by previous_on_border: the
    edge that arrives at a vertex comes from the next one of the list. *)
Definition border_of (vs : list Z) : list edge := match vs with [] => [] | v :: _ => path vs v end.

Section C75.
Variables (P : Type) (s : LSurf P) (vss : list (list Z)) (uv : uvs).
(** The surface has these border loops *)
Record bordered : Prop := {
  bo_loops : ls_loops P s = map border_of vss;
  bo_distinct : NoDup (concat (map border_of vss));
  bo_edges : forall a b, In (a, b) (concat (map border_of vss)) ->
    In (a, b) (ls_edges P s) /\ ~ In (b, a) (ls_edges P s);
  bo_range : forall vs v, In vs vss -> In v vs -> 0 <= v < lenz (ls_points P s)
}.
(** The corners are the vertices that already have a unique vertex *)
Definition is_corner (v : Z) : bool := match nthz uv v with Some (Some _) => true | _ => false end.
(** The BORDER lines of a loop, given from the side of previous_on_border ([back]) as the exporter
    does, or from the other side *)
Definition line_start (back : bool) (e : edge) : edge := if back then (snd e, fst e) else e.
Definition loop_starts (back : bool) (vs : list Z) : list edge :=
  filter (fun st => is_corner (fst st)) (map (line_start back) (border_of vs)).
(** The border edges along the vertices of a line *)
Fixpoint edges_along (back : bool) (l : list Z) : list edge :=
  match l with
  | a :: ((b :: _) as t) => (if back then (b, a) else (a, b)) :: edges_along back t
  | _ => []
  end.
(** A line runs from a corner to a corner without meeting another, over vertices of the surface *)
Definition between_corners (d : LineData P) : Prop :=
  exists a inner b, d_indices P d = a :: inner ++ [b] /\
    nthz uv a = Some (Some (d_c0 P d)) /\ nthz uv b = Some (Some (d_c1 P d)) /\
    Forall (fun v => nthz uv v = Some None) inner /\
    Forall2 (fun v p => nthz (ls_points P s) v = Some p) (d_indices P d) (d_points P d).

Lemma edges_along_mk back l : edges_along back l = map (mk back) (line_edges l).
Proof.
  induction l as [|a t IH]; [reflexivity|]. destruct t as [|b t]; [reflexivity|].
  change (edges_along back (a :: b :: t)) with ((if back then (b, a) else (a, b)) :: edges_along back (b :: t)).
  rewrite IH. change (line_edges (a :: b :: t)) with ((b, a) :: line_edges (b :: t)). reflexivity.
Qed.
Lemma nthz_some {A} (l : list A) i : 0 <= i < lenz l -> exists a, nthz l i = Some a.
Proof.
  intros H. unfold nthz, lenz in *. rewrite (proj2 (Z.leb_le _ _)), (proj2 (Z.ltb_lt _ _)) by lia. cbn [andb].
  destruct (nth_error l (Z.to_nat i)) eqn:E; [eauto|]. apply nth_error_None in E. lia.
Qed.
Lemma mapM_points l : Forall (fun v => 0 <= v < lenz (ls_points P s)) l ->
  exists pts, mapM (idxz (ls_points P s)) l = Ok pts /\ Forall2 (fun v p => nthz (ls_points P s) v = Some p) l pts.
Proof.
  induction 1 as [|v l H Hl IH]; [exists []; split; [reflexivity|constructor]|].
  destruct IH as [pts [E F]]. destruct (nthz_some _ _ H) as [p Hp].
  exists (p :: pts). split; [|now constructor]. cbn [mapM]. rewrite E. unfold idxz. rewrite Hp. reflexivity.
Qed.

Lemma cut_ok back ws z pre t n :
  List.length uv = List.length (ls_points P s) ->
  ws = pre ++ t -> is_corner z = true ->
  Forall (fun v => 0 <= v < lenz (ls_points P s)) (t ++ [z]) ->
  (forall p x y q, map (mk back) (path ws z) = p ++ x :: y :: q -> walk_step P s back x = Ok y) ->
  (forall m c, In (m, c) (path t z) -> find_edge P s m c = Ok (mk back (m, c), back)) ->
  (List.length t <= n)%nat -> n = List.length (concat (ls_loops P s)) ->
  exists ds, mapM (fun e => compute_line P s uv (snd e) (fst e)) (filter (fun e => is_corner (snd e)) (path t z)) = Ok ds /\
    map (d_indices P) ds = cut is_corner t z /\ Forall between_corners ds.
Proof.
  intros Hu. revert pre. induction t as [|c t IH]; intros pre -> Hz Hr Hstep Hf Hn En.
  { exists []. repeat split. constructor. }
  apply Forall_cons_iff in Hr as [Hc Hr].
  destruct (IH (pre ++ [c])) as [ds [E [I F]]]; auto.
  { now rewrite <- app_assoc. }
  { intros m c' Hi. apply Hf. now right. }
  { simpl in Hn. lia. }
  cbn [path filter snd cut]. destruct (is_corner c) eqn:Ec; [|exists ds; auto].
  set (nx := match t with [] => z | w :: _ => w end).
  assert (Hin : Forall (in_uv uv) (t ++ [z])).
  { apply Forall_forall. intros v Hv. apply nthz_some. unfold lenz. rewrite Hu. apply (proj1 (Forall_forall _ _) Hr v Hv). }
  pose proof (walk_ok P s uv back (pre ++ c :: t) z pre c t n eq_refl Hstep Hin Hz ltac:(simpl in Hn; lia)) as W.
  fold nx in W. change (corner_at uv) with is_corner in W.
  assert (Ci : exists c0, nthz uv c = Some (Some c0)).
  { unfold is_corner in Ec. destruct (nthz uv c) as [[]|]; try discriminate. eauto. }
  destruct Ci as [c0 Hc0].
  assert (Hl : forall d, is_corner (last (until is_corner t z) d) = true) by (intros; now apply until_last).
  destruct (until_cons is_corner t z) as [u [us Eu]].
  assert (L : exists inner b, until is_corner t z = inner ++ [b]).
  { exists (removelast (until is_corner t z)), (last (until is_corner t z) 0). apply app_removelast_last. rewrite Eu. discriminate. }
  destruct L as [inner [b Lb]].
  pose proof (until_inner is_corner t z) as Ui. rewrite Lb in Ui. rewrite removelast_last in Ui.
  assert (Hb : exists c1, nthz uv b = Some (Some c1)).
  { specialize (Hl 0). rewrite Lb, last_last in Hl. unfold is_corner in Hl. destruct (nthz uv b) as [[]|]; try discriminate. eauto. }
  destruct Hb as [c1 Hc1].
  assert (Hall : Forall (fun v => 0 <= v < lenz (ls_points P s)) (c :: until is_corner t z)).
  { constructor; [assumption|]. apply Forall_forall. intros v Hv. apply until_incl in Hv. apply (proj1 (Forall_forall _ _) Hr v Hv). }
  destruct (mapM_points _ Hall) as [pts [Ep Fp]].
  exists (mkLineData P c0 c1 pts (c :: until is_corner t z) :: ds).
  split; [|split].
  - cbn [mapM snd fst]. rewrite E. unfold compute_line at 1. unfold idxz at 1. rewrite Hc0. cbn [bind].
    rewrite (Hf nx c) by (left; reflexivity). cbn [bind]. rewrite <- En, W. cbn [bind]. rewrite Ep. cbn [bind].
    rewrite Lb. rewrite app_comm_cons, last_last. unfold idxz at 1. rewrite Hc1. reflexivity.
  - cbn [map d_indices]. now rewrite I.
  - constructor; [|assumption]. exists c, inner, b. cbn [d_indices d_c0 d_c1 d_points]. rewrite <- Lb.
    repeat split; auto.
    apply Forall_forall. intros v Hv. pose proof (proj1 (Forall_forall _ _) Ui v Hv) as Hv0.
    assert (Hv1 : In v (t ++ [z])) by (apply (until_incl is_corner); rewrite Lb; apply in_or_app; now left).
    destruct (proj1 (Forall_forall _ _) Hin v Hv1) as [o Ho]. unfold is_corner in Hv0. rewrite Ho in *. destruct o; [discriminate|reflexivity].
Qed.

Lemma border_rot a c b : exists A B, border_of (a ++ c :: b) = A ++ B /\ path ((c :: b) ++ a) c = B ++ A.
Proof.
  exists (path a c), (path (c :: b) (match a with [] => c | x :: _ => x end)). split.
  - destruct a as [|x a]; [reflexivity|]. unfold border_of. cbn [app]. rewrite app_comm_cons.
    rewrite path_app by discriminate. reflexivity.
  - destruct a as [|x a]; [now rewrite !app_nil_r|]. rewrite path_app by discriminate. reflexivity.
Qed.
Lemma path_in vs z a b : In (a, b) (path vs z) -> In b vs /\ In a (vs ++ [z]).
Proof.
  induction vs as [|v t IH]; [contradiction|]. cbn [path]. intros [H|H].
  - injection H as <- <-. split; [now left|]. right. destruct t; now left.
  - apply IH in H as [H1 H2]. split; now right.
Qed.
Lemma mapM_perm {A B} (f : A -> res B) l l' : Permutation l l' -> forall r, mapM f l = Ok r ->
  exists r', mapM f l' = Ok r' /\ Permutation r r'.
Proof.
  induction 1 as [|x l l' HP IH|x y l|l l' l'' H1 IH1 H2 IH2]; intros r Hr.
  - exists r. split; [assumption|reflexivity].
  - cbn [mapM] in *. apply bind_ok in Hr as [b [Hb Hr]]. apply bind_ok in Hr as [bs [Hbs Hr]].
    destruct (IH _ Hbs) as [r' [E HP']]. exists (b :: r'). rewrite Hb, E. split; [reflexivity|].
    injection Hr as <-. now constructor.
  - cbn [mapM] in *. apply bind_ok in Hr as [b [Hb Hr]]. apply bind_ok in Hr as [bs [Hbs Hr]].
    apply bind_ok in Hbs as [b2 [Hb2 Hbs]]. apply bind_ok in Hbs as [bs2 [Hbs2 Hbs]].
    injection Hbs as <-. injection Hr as <-. exists (b2 :: b :: bs2). rewrite Hb, Hb2, Hbs2. split; [reflexivity|]. apply perm_swap.
  - destruct (IH1 _ Hr) as [r1 [E1 P1]]. destruct (IH2 _ E1) as [r2 [E2 P2]]. exists r2. split; [assumption|]. now rewrite P1.
Qed.
Lemma filter_perm {A} (f : A -> bool) l l' : Permutation l l' -> Permutation (filter f l) (filter f l').
Proof.
  induction 1; cbn [filter]; [constructor|destruct (f x); auto|destruct (f x), (f y); [apply perm_swap|reflexivity..]|etransitivity; eassumption].
Qed.
Lemma filter_map {A B} (f : B -> bool) (g : A -> B) l : filter f (map g l) = map g (filter (fun x => f (g x)) l).
Proof. induction l as [|x l IH]; [reflexivity|]. cbn [map filter]. destruct (f (g x)); cbn [map]; now rewrite IH. Qed.

(** The walk in either direction: [L] are the loops in the order of the walk *)
Lemma loop_core back L vs :
  List.length uv = List.length (ls_points P s) ->
  (forall e, walk_step P s back e = follow_loops L e) ->
  NoDup (concat L) -> In (map (mk back) (border_of vs)) L ->
  (forall m c, In (m, c) (border_of vs) -> find_edge P s m c = Ok (mk back (m, c), back)) ->
  (forall v, In v vs -> 0 <= v < lenz (ls_points P s)) ->
  (List.length vs <= List.length (concat (ls_loops P s)))%nat ->
  (exists v, In v vs /\ is_corner v = true) ->
  exists ds, mapM (fun e => compute_line P s uv (snd e) (fst e)) (filter (fun e => is_corner (snd e)) (border_of vs)) = Ok ds /\
    Permutation (flat_map (fun d => edges_along back (d_indices P d)) ds) (map (mk back) (border_of vs)) /\
    Forall between_corners ds.
Proof.
  intros Hu HL ND Hin Hf Hr Hn [c [Hc Ec]].
  apply in_split in Hc as [a [b ->]]. destruct (border_rot a c b) as [A [B [EA EB]]].
  set (ws := (c :: b) ++ a) in *.
  assert (PW : Permutation (path ws c) (border_of (a ++ c :: b))).
  { rewrite EA, EB. apply Permutation_app_comm. }
  destruct (cut_ok back ws c [] ws (List.length (concat (ls_loops P s)))) as [ds [E [I F]]]; auto.
  - apply Forall_forall. intros v Hv. apply Hr. apply in_app_or in Hv as [Hv|[<-|[]]].
    + unfold ws in Hv. apply in_app_or in Hv. apply in_or_app. tauto.
    + apply in_or_app. right. now left.
  - intros p x y q H. rewrite HL. apply (follow_loops_ok L (map (mk back) (A ++ B))); [assumption|now rewrite <- EA|].
    rewrite map_app. rewrite EB, map_app in H. apply (follow_rot _ _ p x y q); [|assumption].
    rewrite <- map_app, <- EA. apply in_split in Hin as [L1 [L2 ->]]. rewrite concat_app in ND. apply NoDup_app_r in ND.
    cbn [concat] in ND. now apply NoDup_app_l in ND.
  - intros m c' Hi. apply Hf. now apply (Permutation_in _ PW).
  - unfold ws. rewrite app_length in *. lia.
  - destruct (mapM_perm _ _ _ (filter_perm (fun e => is_corner (snd e)) _ _ PW) _ E) as [ds' [E' P']].
    exists ds'. split; [assumption|]. split.
    + rewrite <- (Permutation_flat_map _ P'). rewrite <- PW.
      assert (X : flat_map (fun d => edges_along back (d_indices P d)) ds = map (mk back) (flat_map line_edges (cut is_corner ws c))).
      { rewrite <- I. clear. induction ds as [|d ds IH]; [reflexivity|]. cbn [flat_map map]. rewrite map_app, IH, edges_along_mk. reflexivity. }
      rewrite X. unfold ws at 1. cbn [app cut]. rewrite Ec. cbn [flat_map]. rewrite cut_edges. reflexivity.
    + apply Forall_forall. intros d Hd. apply (proj1 (Forall_forall _ _) F). now apply (Permutation_in _ (Permutation_sym P')).
Qed.

Lemma path_rev vs z v : map (mk false) (rev (path (v :: vs) z)) = path (z :: rev vs) v.
Proof.
  revert v. induction vs as [|w t IH]; intros v; [reflexivity|].
  change (path (v :: w :: t) z) with ((w, v) :: path (w :: t) z). cbn [rev]. rewrite map_app, IH.
  change (rev (w :: t)) with (rev t ++ [w]). rewrite app_comm_cons, (path_app _ [w]) by discriminate. reflexivity.
Qed.
Lemma border_rev v vs : rev (border_of (v :: vs)) = map (mk false) (border_of (v :: rev vs)).
Proof.
  unfold border_of at 2. rewrite <- path_rev, map_map. unfold border_of. symmetry. etransitivity; [|apply map_id].
  apply map_ext. now intros [x y].
Qed.
Lemma concat_rev_perm {A} (L : list (list A)) : Permutation (concat (map (@rev A) L)) (concat L).
Proof. induction L as [|l L IH]; [reflexivity|]. cbn [map concat]. rewrite IH, <- Permutation_rev. reflexivity. Qed.

Theorem C75_lines_cut_the_loop : forall back vs,
  bordered -> List.length uv = List.length (ls_points P s) ->
  In vs vss -> (exists v, In v vs /\ is_corner v = true) ->
  exists ds, mapM (fun st => compute_line P s uv (fst st) (snd st)) (loop_starts back vs) = Ok ds /\
    Permutation (flat_map (fun d => edges_along back (d_indices P d)) ds) (border_of vs) /\
    Forall between_corners ds.
Proof.
  intros back vs HB Hu Hvs Hc.
  assert (Hlen : (List.length vs <= List.length (concat (ls_loops P s)))%nat).
  { rewrite (bo_loops HB). apply in_split in Hvs as [x [y ->]]. rewrite map_app, concat_app, app_length. cbn [map concat].
    rewrite app_length. assert (List.length (border_of vs) = List.length vs); [|lia].
    destruct vs; [reflexivity|]. apply path_length. }
  assert (Hex : forall e l, existsb (edge_eqb e) l = true <-> In e l).
  { intros e l. rewrite existsb_exists. split; [intros [x [Hx E]]; apply edge_eqb_eq in E; congruence|].
    intros Hi. exists e. split; [assumption|apply edge_eqb_refl]. }
  assert (Hfe : forall a b, In (a, b) (border_of vs) -> In (a, b) (ls_edges P s) /\ ~ In (b, a) (ls_edges P s)).
  { intros a b Hi. apply (bo_edges HB). apply in_concat. exists (border_of vs). split; [now apply in_map|assumption]. }
  destruct back.
  - destruct (loop_core true (ls_loops P s) vs) as [ds [E [PM F]]]; auto.
    + rewrite (bo_loops HB). apply (bo_distinct HB).
    + cbn [mk]. rewrite map_id, (bo_loops HB). now apply in_map.
    + intros m c Hi. destruct (Hfe _ _ Hi) as [H1 _]. unfold find_edge. now rewrite (proj2 (Hex _ _) H1).
    + intros v. now apply (bo_range HB vs).
    + exists ds. split; [|split; [|assumption]].
      * unfold loop_starts. rewrite filter_map, mapM_map. exact E.
      * rewrite PM. cbn [mk]. now rewrite map_id.
  - destruct Hc as [c [Hc Ec]]. destruct vs as [|v vs]; [contradiction|].
    assert (Hin : forall x, In x (v :: rev vs) <-> In x (v :: vs)) by (intros x; cbn [In]; rewrite <- in_rev; reflexivity).
    assert (PR : Permutation (border_of (v :: vs)) (map (mk false) (border_of (v :: rev vs)))).
    { rewrite <- border_rev. apply Permutation_rev. }
    destruct (loop_core false (map (@rev edge) (ls_loops P s)) (v :: rev vs)) as [ds [E [PM F]]]; auto.
    + rewrite (bo_loops HB). apply (Permutation_NoDup (Permutation_sym (concat_rev_perm _))). apply (bo_distinct HB).
    + rewrite <- border_rev, (bo_loops HB). apply in_map, in_map. assumption.
    + intros m d Hi.
      assert (Hi2 : In (d, m) (border_of (v :: vs))).
      { apply (Permutation_in _ (Permutation_sym PR)). apply in_map_iff. exists (m, d). split; [reflexivity|assumption]. }
      destruct (Hfe _ _ Hi2) as [H1 H2]. unfold find_edge. rewrite (proj2 (Hex _ _) H1).
      destruct (existsb (edge_eqb (m, d)) (ls_edges P s)) eqn:X; [apply Hex in X; contradiction|reflexivity].
    + intros x Hx. apply (bo_range HB (v :: vs)); [assumption|]. now apply Hin.
    + simpl in *. now rewrite rev_length.
    + exists c. split; [now apply Hin|assumption].
    + assert (PS : Permutation (map (fun e : edge => (snd e, fst e)) (filter (fun e => is_corner (snd e)) (border_of (v :: rev vs))))
                     (loop_starts false (v :: vs))).
      { unfold loop_starts. rewrite (filter_perm _ _ _ (Permutation_map (line_start false) PR)).
        rewrite map_map, filter_map. reflexivity. }
      assert (E2 : mapM (fun st => compute_line P s uv (fst st) (snd st))
                     (map (fun e : edge => (snd e, fst e)) (filter (fun e => is_corner (snd e)) (border_of (v :: rev vs)))) = Ok ds).
      { rewrite mapM_map. exact E. }
      destruct (mapM_perm _ _ _ PS _ E2) as [ds' [E' P']].
      exists ds'. split; [assumption|]. split.
      * rewrite <- (Permutation_flat_map _ P'), PM. now symmetry.
      * apply Forall_forall. intros d Hd. apply (proj1 (Forall_forall _ _) F). now apply (Permutation_in _ (Permutation_sym P')).
Qed.

(** All the loops of the surface: no vertex is inside two lines or twice inside one *)
Lemma mapM_app_ok {A B} (f : A -> res B) a b x y : mapM f a = Ok x -> mapM f b = Ok y -> mapM f (a ++ b) = Ok (x ++ y).
Proof. rewrite !mapM_ok. apply Forall2_app. Qed.
Lemma edges_heads back l : map (fun e : edge => if back : bool then snd e else fst e) (edges_along back l) = removelast l.
Proof.
  induction l as [|a t IH]; [reflexivity|]. destruct t as [|b t]; [reflexivity|].
  change (edges_along back (a :: b :: t)) with ((if back then (b, a) else (a, b)) :: edges_along back (b :: t)).
  cbn [map]. rewrite IH. change (removelast (a :: b :: t)) with (a :: removelast (b :: t)). f_equal. now destruct back.
Qed.
Lemma path_fst vs z : map fst (path vs z) = tl (vs ++ [z]).
Proof. induction vs as [|v t IH]; [reflexivity|]. cbn [path map app tl fst]. rewrite IH. destruct t; reflexivity. Qed.
Lemma path_snd vs z : map snd (path vs z) = vs.
Proof. induction vs as [|v t IH]; [reflexivity|]. cbn [path map snd]. congruence. Qed.
Lemma border_heads back vs : Permutation (map (fun e : edge => if back : bool then snd e else fst e) (border_of vs)) vs.
Proof.
  destruct vs as [|v vs]; [now destruct back|]. unfold border_of. destruct back.
  - change (Permutation (map snd (path (v :: vs) v)) (v :: vs)). now rewrite path_snd.
  - change (Permutation (map fst (path (v :: vs) v)) (v :: vs)). rewrite path_fst. cbn [app tl]. symmetry. apply Permutation_cons_append.
Qed.
Theorem C75_no_vertex_in_two_lines : forall back,
  bordered -> List.length uv = List.length (ls_points P s) ->
  NoDup (concat vss) -> Forall (fun vs => exists v, In v vs /\ is_corner v = true) vss ->
  exists ds, mapM (fun st => compute_line P s uv (fst st) (snd st)) (flat_map (loop_starts back) vss) = Ok ds /\
    Forall between_corners ds /\
    Permutation (flat_map (fun d => edges_along back (d_indices P d)) ds) (concat (map border_of vss)) /\
    NoDup (flat_map (fun d => removelast (tl (d_indices P d))) ds).
Proof.
  intros back HB Hu ND HC.
  assert (G : forall l, incl l vss -> exists ds,
            mapM (fun st => compute_line P s uv (fst st) (snd st)) (flat_map (loop_starts back) l) = Ok ds /\
            Forall between_corners ds /\
            Permutation (flat_map (fun d => edges_along back (d_indices P d)) ds) (concat (map border_of l))).
  { induction l as [|vs l IH]; intros Hl; [exists []; repeat split; constructor|].
    destruct IH as [ds [E [F PM]]]; [intros x Hx; apply Hl; now right|].
    assert (Hvs : In vs vss) by (apply Hl; now left).
    destruct (C75_lines_cut_the_loop back vs HB Hu Hvs (proj1 (Forall_forall _ _) HC vs Hvs)) as [ds1 [E1 [P1 F1]]].
    exists (ds1 ++ ds). cbn [flat_map map concat]. split; [now apply mapM_app_ok|]. split; [apply Forall_app; auto|].
    rewrite flat_map_app. now apply Permutation_app. }
  destruct (G vss (incl_refl _)) as [ds [E [F PM]]]. exists ds. repeat split; auto.
  assert (H : Permutation (flat_map (fun d => removelast (d_indices P d)) ds) (concat vss)).
  { apply (Permutation_map (fun e : edge => if back then snd e else fst e)) in PM.
    assert (X : map (fun e : edge => if back then snd e else fst e) (flat_map (fun d => edges_along back (d_indices P d)) ds)
                = flat_map (fun d => removelast (d_indices P d)) ds).
    { clear. induction ds as [|d ds IH]; [reflexivity|]. cbn [flat_map]. now rewrite map_app, IH, edges_heads. }
    rewrite <- X, PM. clear. induction vss as [|vs l IH]; [reflexivity|]. cbn [map concat]. rewrite map_app.
    apply Permutation_app; [apply border_heads|assumption]. }
  apply (Permutation_NoDup (Permutation_sym H)) in ND. clear -ND F.
  induction F as [|d ds [a [inner [b [Ei _]]]] F IH]; [constructor|]. cbn [flat_map] in *. rewrite Ei in *.
  rewrite app_comm_cons, removelast_last in ND. cbn [tl]. rewrite removelast_last.
  cbn [app] in ND. inversion ND as [|? ? N1 N2]; subst. clear N1.
  assert (K : NoDup (flat_map (fun d => removelast (tl (d_indices P d))) ds)) by (apply IH; now apply NoDup_app_r in N2).
  assert (I : incl (flat_map (fun d => removelast (tl (d_indices P d))) ds) (flat_map (fun d => removelast (d_indices P d)) ds)).
  { intros x Hx. apply in_flat_map in Hx as [y [Hy Hx]]. apply in_flat_map. exists y. split; [assumption|].
    destruct (d_indices P y) as [|z [|w t]]; [contradiction..|]. right. exact Hx. }
  clear -N2 K I. induction inner as [|x inner IH]; [assumption|]. cbn [app] in *. inversion N2; subst. constructor; [|auto].
  intros Hi. apply in_app_or in Hi as [Hi|Hi]; apply H1; apply in_or_app; [now left|right; auto].
Qed.
End C75.
Print Assumptions C75_lines_cut_the_loop.
Print Assumptions C75_no_vertex_in_two_lines.
(** The two loops of the ring, corners 0 and 1 on the first and 4 on the second *)
Definition ring_uv : uvs := [Some 0; Some 1; None; None; Some 2; None].
Lemma ring_bordered : bordered Z ring [[0; 2; 1]; [3; 4; 5]].
Proof.
  constructor.
  - reflexivity.
  - cbn. repeat constructor; cbn; intuition congruence.
  - cbn. intros a b H. repeat (destruct H as [H|H]; [injection H as <- <-; split; intuition congruence|]). contradiction.
  - intros vs v [<-|[<-|[]]] H; cbn in H; unfold lenz; cbn; lia.
Qed.
Example C75_example :
  rmap (map (d_indices Z)) (mapM (fun st => compute_line Z ring ring_uv (fst st) (snd st)) (loop_starts ring_uv true [0; 2; 1]))
  = Ok [[0; 2; 1]; [1; 0]] /\
  rmap (map (d_indices Z)) (mapM (fun st => compute_line Z ring ring_uv (fst st) (snd st)) (loop_starts ring_uv false [3; 4; 5]))
  = Ok [[4; 3; 5; 4]] /\
  bordered Z ring [[0; 2; 1]; [3; 4; 5]] /\ (exists v, In v [3; 4; 5] /\ is_corner ring_uv v = true).
Proof.
  split; [reflexivity|]. split; [reflexivity|]. split; [apply ring_bordered|]. exists 4. split; [cbn; tauto|reflexivity].
Qed.

(** ** C76: two borders that run through the same points are the same line *)
Section C76.
Variables (P : Type) (near : P -> P -> bool).
(** The borders read, one after the other: the line of each and its vertices put in the order of
    the points of the line *)
Fixpoint number_lines (st : list (Line P) * Z) (ds : list (LineData P)) : (list (Line P) * Z) * list (Z * list Z) :=
  match ds with
  | [] => (st, [])
  | d :: r =>
      let '(st', x) := find_or_create_line P near st d in
      let '(st'', l) := number_lines st' r in (st'', x :: l)
  end.
(** Two borders have the same ends and points, in the same or in the opposite order *)
Definition close (p q : P) : Prop := near p q = true.
Definition same_curve (a b : LineData P) : Prop :=
  (d_c0 P a = d_c0 P b /\ d_c1 P a = d_c1 P b /\ Forall2 close (d_points P a) (d_points P b)) \/
  (d_c0 P a = d_c1 P b /\ d_c1 P a = d_c0 P b /\ Forall2 close (d_points P a) (rev (d_points P b))).

Hypothesis near_refl : forall p, near p p = true.
Hypothesis near_sym : forall p q, near p q = true -> near q p = true.
Hypothesis near_trans : forall p q r, near p q = true -> near q r = true -> near p r = true.

Lemma all_near_ok a b : all_near P near a b = true <-> Forall2 close a b.
Proof.
  revert b. induction a as [|x a IH]; intros [|y b]; cbn [all_near].
  - split; [constructor|reflexivity].
  - split; [discriminate|inversion 1].
  - split; [discriminate|inversion 1].
  - rewrite andb_true_iff, IH. split; [intros []; now constructor|inversion 1; subst; auto].
Qed.
Lemma f2_refl a : Forall2 close a a.
Proof. induction a; constructor; [apply near_refl|assumption]. Qed.
Lemma f2_sym a b : Forall2 close a b -> Forall2 close b a.
Proof. induction 1; constructor; [now apply near_sym|assumption]. Qed.
Lemma f2_trans a b c : Forall2 close a b -> Forall2 close b c -> Forall2 close a c.
Proof.
  intros H. revert c. induction H as [|x y a b Hxy Hab IH]; intros c Hc; inversion Hc; subst; constructor; eauto.
  eapply near_trans; eauto.
Qed.
Lemma f2_rev a b : Forall2 close a b -> Forall2 close (rev a) (rev b).
Proof. induction 1; cbn [rev]; [constructor|]. apply Forall2_app; [assumption|]. repeat constructor. assumption. Qed.

Lemma same_refl a : same_curve a a.
Proof. left. repeat split. apply f2_refl. Qed.
Lemma same_sym a b : same_curve a b -> same_curve b a.
Proof.
  intros [[H1 [H2 H3]]|[H1 [H2 H3]]]; [left|right]; repeat split; auto; [now apply f2_sym|].
  apply f2_rev in H3. rewrite rev_involutive in H3. now apply f2_sym.
Qed.
Lemma same_trans a b c : same_curve a b -> same_curve b c -> same_curve a c.
Proof.
  intros [[H1 [H2 H3]]|[H1 [H2 H3]]] [[K1 [K2 K3]]|[K1 [K2 K3]]].
  - left. repeat split; try congruence. eapply f2_trans; eauto.
  - right. repeat split; try congruence. eapply f2_trans; eauto.
  - right. repeat split; try congruence. eapply f2_trans; [eauto|]. now apply f2_rev.
  - left. repeat split; try congruence. eapply f2_trans; [eauto|]. rewrite <- (rev_involutive (d_points P c)). now apply f2_rev.
Qed.

(** A created line seen as a border *)
Definition as_data (l : Line P) : LineData P := mkLineData P (ln_c0 P l) (ln_c1 P l) (ln_points P l) [].
Definition distinct_lines (ls : list (Line P)) : Prop := forall i j a b,
  nthz ls i = Some a -> nthz ls j = Some b -> same_curve (as_data a) (as_data b) -> i = j.

Lemma nthz_cons {A} (a : A) l i : nthz (a :: l) i = if i =? 0 then Some a else nthz l (i - 1).
Proof.
  unfold nthz. cbn [List.length]. destruct (Z.eqb_spec i 0) as [->|H].
  - change (0 <=? 0) with true. now rewrite (proj2 (Z.ltb_lt _ _)) by lia.
  - destruct (Z.leb_spec 0 i); [|rewrite (proj2 (Z.leb_gt 0 (i - 1))) by lia; reflexivity].
    rewrite (proj2 (Z.leb_le 0 (i - 1))) by lia.
    replace (i <? Z.of_nat (S (List.length l))) with (i - 1 <? Z.of_nat (List.length l))
      by (destruct (Z.ltb_spec (i - 1) (Z.of_nat (List.length l))), (Z.ltb_spec i (Z.of_nat (S (List.length l)))); lia).
    destruct (i - 1 <? _); [|reflexivity]. cbn [andb]. replace (Z.to_nat i) with (S (Z.to_nat (i - 1))) by lia. reflexivity.
Qed.
Lemma search_some ok c0 c1 k ls x : search_line P ok c0 c1 k ls = Some x ->
  exists l, nthz ls (x - k) = Some l /\ ln_c0 P l = c0 /\ ln_c1 P l = c1 /\ ok l = true.
Proof.
  revert k. induction ls as [|l r IH]; intros k H; [discriminate|]. cbn [search_line] in H.
  destruct ((ln_c0 P l =? c0) && (ln_c1 P l =? c1) && ok l) eqn:E.
  - injection H as <-. exists l. rewrite Z.sub_diag. split; [reflexivity|].
    apply andb_true_iff in E as [E E3]. apply andb_true_iff in E as [E1 E2]. apply Z.eqb_eq in E1, E2. auto.
  - destruct (IH _ H) as [l' [H1 H2]]. exists l'. split; [|assumption]. rewrite nthz_cons.
    assert (0 <= x - (k + 1)).
    { unfold nthz in H1. destruct (Z.leb_spec 0 (x - (k + 1))); [assumption|discriminate]. }
    rewrite (proj2 (Z.eqb_neq _ _)) by lia. now replace (x - k - 1) with (x - (k + 1)) by lia.
Qed.
Lemma search_none ok c0 c1 k ls : search_line P ok c0 c1 k ls = None ->
  forall l, In l ls -> ln_c0 P l = c0 -> ln_c1 P l = c1 -> ok l = false.
Proof.
  revert k. induction ls as [|l r IH]; intros k H; [contradiction|]. cbn [search_line] in H.
  destruct ((ln_c0 P l =? c0) && (ln_c1 P l =? c1) && ok l) eqn:E; [discriminate|].
  intros l' [->|Hi] H0 H1; [|eauto]. rewrite H0, H1, !Z.eqb_refl in E. assumption.
Qed.
Lemma nthz_app_l {A} (a b : list A) i x : nthz a i = Some x -> nthz (a ++ b) i = Some x.
Proof.
  unfold nthz. destruct (Z.leb_spec 0 i); [|discriminate]. destruct (Z.ltb_spec i (Z.of_nat (List.length a))); [|discriminate].
  cbn [andb]. intros H1. rewrite app_length. rewrite (proj2 (Z.ltb_lt _ _)) by lia. rewrite nth_error_app1 by lia. assumption.
Qed.
Lemma nthz_in {A} (l : list A) i x : nthz l i = Some x -> In x l.
Proof. unfold nthz. destruct (_ && _); [apply nth_error_In|discriminate]. Qed.
Lemma nthz_snoc {A} (a : list A) b i x : nthz (a ++ [b]) i = Some x -> nthz a i = Some x \/ (i = lenz a /\ x = b).
Proof.
  unfold nthz, lenz. destruct (Z.leb_spec 0 i); [|discriminate]. rewrite app_length. cbn [List.length].
  destruct (Z.ltb_spec i (Z.of_nat (List.length a + 1))); [|discriminate]. cbn [andb]. intros E.
  destruct (Z.ltb_spec i (Z.of_nat (List.length a))); [left; now rewrite nth_error_app1 in E by lia|].
  right. split; [lia|]. rewrite nth_error_app2 in E by lia. replace (Z.to_nat i - List.length a)%nat with 0%nat in E by lia. cbn in E. congruence.
Qed.
Lemma nthz_last {A} (a : list A) b : nthz (a ++ [b]) (lenz a) = Some b.
Proof.
  unfold nthz, lenz. rewrite app_length. cbn [List.length]. rewrite (proj2 (Z.leb_le _ _)), (proj2 (Z.ltb_lt _ _)) by lia.
  cbn [andb]. rewrite nth_error_app2 by lia. replace (Z.to_nat _ - _)%nat with 0%nat by lia. reflexivity.
Qed.

(** The vertices of a border in the order of the points of the line *)
Definition aligned (d : LineData P) (l : Line P) (idx : list Z) : Prop :=
  (idx = d_indices P d /\ ln_c0 P l = d_c0 P d /\ ln_c1 P l = d_c1 P d /\ Forall2 close (ln_points P l) (d_points P d)) \/
  (idx = rev (d_indices P d) /\ ln_c0 P l = d_c1 P d /\ ln_c1 P l = d_c0 P d /\ Forall2 close (ln_points P l) (rev (d_points P d))).

Lemma find_or_create_spec ls n d : distinct_lines ls ->
  exists new n' k idx l, find_or_create_line P near (ls, n) d = ((ls ++ new, n'), (k, idx)) /\
    distinct_lines (ls ++ new) /\ nthz (ls ++ new) k = Some l /\ aligned d l idx.
Proof.
  intros HD. unfold find_or_create_line.
  destruct (search_line P (are_lines_equal P near d) (d_c0 P d) (d_c1 P d) 0 ls) as [k|] eqn:E1.
  - apply search_some in E1 as [l [H1 [H2 [H3 H4]]]]. rewrite Z.sub_0_r in H1.
    exists [], n, k, (d_indices P d), l. rewrite app_nil_r. repeat split; auto. left. repeat split; auto. now apply all_near_ok.
  - destruct (search_line P (are_lines_reverse_equal P near d) (d_c1 P d) (d_c0 P d) 0 ls) as [k|] eqn:E2.
    + apply search_some in E2 as [l [H1 [H2 [H3 H4]]]]. rewrite Z.sub_0_r in H1.
      exists [], n, k, (rev (d_indices P d)), l. rewrite app_nil_r. repeat split; auto. right. repeat split; auto. now apply all_near_ok.
    + unfold create_line. set (l := mkLine P _ _ _ _). exists [l]. do 2 eexists. exists (d_indices P d), l. split; [reflexivity|].
      assert (New : forall i a, nthz ls i = Some a -> same_curve (as_data a) (as_data l) -> False).
      { intros i a Ha [[S1 [S2 S3]]|[S1 [S2 S3]]]; cbn in S1, S2, S3; apply nthz_in in Ha.
        - pose proof (search_none _ _ _ _ _ E1 a Ha S1 S2) as X. unfold are_lines_equal in X.
          rewrite (proj2 (all_near_ok _ _) S3) in X. discriminate.
        - pose proof (search_none _ _ _ _ _ E2 a Ha S1 S2) as X. unfold are_lines_reverse_equal in X.
          rewrite (proj2 (all_near_ok _ _) S3) in X. discriminate. }
      split; [|split].
      * intros i j a b Hi Hj S. apply nthz_snoc in Hi, Hj.
        destruct Hi as [Hi|[-> ->]], Hj as [Hj|[-> ->]]; [eauto| | |reflexivity].
        -- destruct (New _ _ Hi S).
        -- destruct (New _ _ Hj (same_sym _ _ S)).
      * apply nthz_last.
      * left. repeat split. apply f2_refl.
Qed.
Lemma number_lines_spec ds ls n : distinct_lines ls ->
  exists new n' ids, number_lines (ls, n) ds = ((ls ++ new, n'), ids) /\ distinct_lines (ls ++ new) /\
    Forall2 (fun d x => exists l, nthz (ls ++ new) (fst x) = Some l /\ aligned d l (snd x)) ds ids.
Proof.
  revert ls n. induction ds as [|d r IH]; intros ls n HD.
  { exists [], n, []. rewrite app_nil_r. repeat split; auto. }
  destruct (find_or_create_spec ls n d HD) as [new [n1 [k [idx [l [E [HD1 [Hl Ha]]]]]]]].
  destruct (IH _ n1 HD1) as [new2 [n2 [ids [E2 [HD2 F]]]]].
  exists (new ++ new2), n2, ((k, idx) :: ids). cbn [number_lines]. rewrite E, E2, app_assoc. repeat split; auto.
  constructor; [|assumption]. exists l. split; [now apply nthz_app_l|assumption].
Qed.
Lemma aligned_same d l idx : aligned d l idx -> same_curve d (as_data l).
Proof.
  intros [[_ [H1 [H2 H3]]]|[_ [H1 [H2 H3]]]]; apply same_sym; [left|right]; repeat split; auto.
Qed.

Theorem C76_same_line_iff_same_curve : forall ds lines n ids,
  number_lines ([], 0) ds = ((lines, n), ids) ->
  List.length ids = List.length ds /\
  (forall i j di dj xi xj, nth_error ds i = Some di -> nth_error ds j = Some dj ->
     nth_error ids i = Some xi -> nth_error ids j = Some xj ->
     (fst xi = fst xj <-> same_curve di dj)) /\
  (forall i d x, nth_error ds i = Some d -> nth_error ids i = Some x ->
     exists l, nthz lines (fst x) = Some l /\ aligned d l (snd x)).
Proof.
  intros ds lines n ids H.
  assert (D0 : distinct_lines []) by (intros i j a b Hi; unfold nthz in Hi; destruct (_ && _); [destruct (Z.to_nat i)|]; discriminate).
  destruct (number_lines_spec ds [] 0 D0) as [new [n' [ids' [E [HD F]]]]]. rewrite E in H. injection H as <- <- <-. cbn [app] in *.
  assert (Q : forall i d x, nth_error ds i = Some d -> nth_error ids' i = Some x ->
     exists l, nthz new (fst x) = Some l /\ aligned d l (snd x)).
  { clear -F. induction F as [|d x ds ids H F IH]; intros [|i] d' x' H1 H2; cbn in H1, H2; try discriminate; [|eauto].
    injection H1 as <-. injection H2 as <-. assumption. }
  split; [|split; [|assumption]].
  - clear -F. induction F; simpl; congruence.
  - intros i j di dj xi xj H1 H2 H3 H4. destruct (Q _ _ _ H1 H3) as [li [Li Ai]]. destruct (Q _ _ _ H2 H4) as [lj [Lj Aj]].
    apply aligned_same in Ai, Aj. split.
    + intros Ex. rewrite Ex, Lj in Li. injection Li as <-. eapply same_trans; [exact Ai|]. now apply same_sym.
    + intros S. apply (HD _ _ li lj); auto. eapply same_trans; [apply same_sym, Ai|]. eapply same_trans; [exact S|exact Aj].
Qed.
End C76.
Print Assumptions C76_same_line_iff_same_curve.
(** Three borders: the second runs along the first in the other direction, the third has the same
    ends but other points *)
Example C76_example :
  snd (number_lines Z Z.eqb ([], 0)
    [mkLineData Z 0 1 [10; 11; 12] [4; 5; 6]; mkLineData Z 1 0 [12; 11; 10] [7; 8; 9]; mkLineData Z 0 1 [10; 13; 12] [0; 1; 2]])
  = [(0, [4; 5; 6]); (0, [9; 8; 7]); (1, [0; 1; 2])].
Proof. reflexivity. Qed.
(** When nearness is not transitive the statement fails: three parallel curves, each near the next
    one (the distance of two numbers is at most one) *)
Definition within_one (p q : Z) : bool := Z.abs (p - q) <=? 1.
Theorem C76_not_transitive_refuted : exists ds ids,
  snd (number_lines Z within_one ([], 0) ds) = ids /\
  exists d1 d2 x1 x2, nth_error ds 1 = Some d1 /\ nth_error ds 2 = Some d2 /\ nth_error ids 1 = Some x1 /\ nth_error ids 2 = Some x2 /\
    same_curve Z within_one d1 d2 /\ fst x1 <> fst x2.
Proof.
  exists [mkLineData Z 0 1 [10; 20; 30] []; mkLineData Z 0 1 [10; 21; 30] []; mkLineData Z 0 1 [10; 22; 30] []].
  eexists. split; [reflexivity|]. do 4 eexists. repeat (split; [reflexivity|]). split.
  - left. repeat split. repeat constructor.
  - cbn. discriminate.
Qed.
Print Assumptions C76_not_transitive_refuted.

(** ** C77: what the last pass adds *)
Section C77.
Variables (P : Type) (near : P -> P -> bool) (ls : list (Line P)) (search : list P).
(** The numbers of the search points near a point *)
Definition neighbor (p : P) (w : Z) : Prop := exists q, nthz search w = Some q /\ near p q = true.

Lemma neighbors_spec p k pts w : In w (neighbors P near p k pts) <-> exists q, nthz pts (w - k) = Some q /\ near p q = true.
Proof.
  revert k. induction pts as [|q r IH]; intros k; cbn [neighbors].
  - split; [contradiction|]. intros [q [H _]]. unfold nthz in H. destruct (_ && _); [destruct (Z.to_nat _)|]; discriminate.
  - assert (R : (exists q', nthz (q :: r) (w - k) = Some q' /\ near p q' = true) <->
               ((w = k /\ near p q = true) \/ exists q', nthz r (w - (k + 1)) = Some q' /\ near p q' = true)).
    { rewrite nthz_cons. destruct (Z.eqb_spec (w - k) 0) as [E|E].
      - split; [intros [q' [H1 H2]]; left; split; [lia|congruence]|]. intros [[_ H]|[q' [H1 H2]]]; [eauto|].
        unfold nthz in H1. rewrite (proj2 (Z.leb_gt 0 (w - (k + 1)))) in H1 by lia. discriminate.
      - replace (w - k - 1) with (w - (k + 1)) by lia. split; [intros H; now right|]. intros [[H _]|H]; [lia|assumption]. }
    rewrite R, <- IH. destruct (near p q) eqn:E; cbn [In].
    + split; [intros [->|H]; auto|intros [[-> _]|H]; auto].
    + split; [auto|intros [[_ H]|H]; [discriminate|assumption]].
Qed.

Definition all_on (uv : uvs) (l : Line P) : Prop := forall u, In u (ln_uv P l) -> In (Some u) uv.
Lemma should_ok uv l : should_line_be_internal P uv l = true <-> all_on uv l.
Proof.
  unfold should_line_be_internal, all_on. rewrite forallb_forall. unfold on_surface. split; intros H u Hu.
  - apply H in Hu. apply existsb_exists in Hu as [[x|] [Hx E]]; [|discriminate]. apply Z.eqb_eq in E. congruence.
  - apply existsb_exists. exists (Some u). split; [auto|apply Z.eqb_refl].
Qed.
(** The added relations: each line once, none already internal *)
Inductive grown (ok : Z -> Prop) : list (Z * bool) -> list (Z * bool) -> Prop :=
| grown_refl r : grown ok r r
| grown_more r k r' : ~ In (k, true) r -> ok k -> grown ok (r ++ [(k, true)]) r' -> grown ok r r'.
Lemma grown_trans ok a b c : grown ok a b -> grown ok b c -> grown ok a c.
Proof. induction 1; intros; [assumption|]. eapply grown_more; eauto. Qed.
Lemma grown_weak (ok ok' : Z -> Prop) a b : (forall k, ok k -> ok' k) -> grown ok a b -> grown ok' a b.
Proof. induction 2; [constructor|]. eapply grown_more; eauto. Qed.
Definition line_on (uv : uvs) (k : Z) : Prop := exists l, nthz ls k = Some l /\ all_on uv l.

Lemma is_internal_ok rel k : is_internal rel k = true <-> In (k, true) rel.
Proof.
  unfold is_internal. rewrite existsb_exists. split.
  - intros [[x b] [H E]]. cbn in E. apply andb_true_iff in E as [E1 E2]. apply Z.eqb_eq in E1. now subst.
  - intros H. exists (k, true). split; [assumption|]. cbn. now rewrite Z.eqb_refl.
Qed.
Lemma internal_lines_grown uv u k l rel : (forall j x, nthz l j = Some x -> nthz ls (k + j) = Some x) ->
  grown (line_on uv) rel (internal_lines P uv u k l rel).
Proof.
  revert k rel. induction l as [|x r IH]; intros k rel H; cbn [internal_lines]; [constructor|].
  assert (Hr : forall j y, nthz r j = Some y -> nthz ls (k + 1 + j) = Some y).
  { intros j y Hj. replace (k + 1 + j) with (k + (j + 1)) by lia. apply H. rewrite nthz_cons.
    assert (0 <= j) by (unfold nthz in Hj; destruct (Z.leb_spec 0 j); [assumption|discriminate]).
    rewrite (proj2 (Z.eqb_neq _ _)) by lia. now replace (j + 1 - 1) with j by lia. }
  destruct (existsb (Z.eqb u) (ln_uv P x) && negb (is_internal rel k) && should_line_be_internal P uv x) eqn:E.
  - apply andb_true_iff in E as [E E3]. apply andb_true_iff in E as [E1 E2].
    eapply grown_more; [|exists x; split; [|apply should_ok, E3]|apply IH; assumption].
    + intros Hi. apply is_internal_ok in Hi. rewrite Hi in E2. discriminate.
    + replace k with (k + 0) by lia. apply H. reflexivity.
  - apply IH; assumption.
Qed.

Definition extends (a b : uvs) : Prop := List.length a = List.length b /\
  forall v u, nthz a v = Some (Some u) -> nthz b v = Some (Some u).
Lemma setz_spec {A} (l : list A) i x l' : setz l i x = Ok l' ->
  List.length l' = List.length l /\ nthz l' i = Some x /\ forall j, j <> i -> nthz l' j = nthz l j.
Proof.
  unfold setz. destruct (Z.leb_spec 0 i); [|discriminate]. destruct (Z.ltb_spec i (Z.of_nat (List.length l))); [|discriminate].
  cbn [andb]. intros E. injection E as <-.
  assert (L : forall m n, List.length (upd m n x) = List.length m).
  { induction m as [|y m IH]; intros [|n]; simpl; auto. }
  split; [apply L|]. split.
  - unfold nthz. rewrite L, (proj2 (Z.leb_le _ _)), (proj2 (Z.ltb_lt _ _)) by assumption. cbn [andb].
    assert (N : (Z.to_nat i < List.length l)%nat) by lia. clear -N. revert N. generalize (Z.to_nat i). induction l as [|y l IH]; intros [|n] N; simpl in *; try lia; auto.
    apply IH. lia.
  - intros j Hj. unfold nthz. rewrite L. destruct (Z.leb_spec 0 j); [|reflexivity]. destruct (j <? _); [|reflexivity]. cbn [andb].
    assert (N : Z.to_nat j <> Z.to_nat i) by lia. clear -N. revert N. generalize (Z.to_nat i), (Z.to_nat j).
    induction l as [|y l IH]; intros [|a] [|b] N; simpl; try reflexivity; try congruence. apply IH. congruence.
Qed.
Lemma extends_set a i x b : nthz a i = Some None -> setz a i (Some x) = Ok b -> extends a b.
Proof.
  intros H E. apply setz_spec in E as [L [S O]]. split; [congruence|]. intros v u Hv.
  destruct (Z.eq_dec v i) as [->|Hn]; [congruence|]. now rewrite O.
Qed.
Lemma extends_trans a b c : extends a b -> extends b c -> extends a c.
Proof. intros [L1 H1] [L2 H2]. split; [congruence|auto]. Qed.
Lemma nthz_of_in {A} (l : list A) x : In x l -> exists i, nthz l i = Some x.
Proof.
  intros H. apply In_nth_error in H as [n H]. exists (Z.of_nat n). unfold nthz.
  assert (n < List.length l)%nat by (apply nth_error_Some; congruence).
  rewrite (proj2 (Z.leb_le _ _)), (proj2 (Z.ltb_lt _ _)) by lia. cbn [andb]. now rewrite Nat2Z.id.
Qed.
Lemma extends_on a b k : extends a b -> line_on a k -> line_on b k.
Proof.
  intros [L H] [l [Hl Ha]]. exists l. split; [assumption|]. intros u Hu. apply Ha in Hu.
  apply nthz_of_in in Hu as [i Hi]. apply H in Hi. now apply nthz_in in Hi.
Qed.

(** What becomes of vertex [v], whose point is [p], given what it had before *)
Definition vertex_done (uv uv' : uvs) (nuv nuv' : Z) (v : Z) (p : P) : Prop :=
  match nthz uv v with
  | Some (Some u) => nthz uv' v = Some (Some u)
  | Some None =>
      exists u, nthz uv' v = Some (Some u) /\
        ((neighbor p u /\ forall w, neighbor p w -> w = u) \/
         ((forall w, ~ neighbor p w) /\ nuv <= u < nuv'))
  | None => False
  end.
(** New unique vertices are not shared *)
Definition fresh_distinct (uv : uvs) (nuv : Z) : Prop := forall v w u,
  nuv <= u -> nthz uv v = Some (Some u) -> nthz uv w = Some (Some u) -> v = w.

Lemma missing_spec pts : forall v uv nuv rel uv' nuv' rel',
  (forall x u, nthz uv x = Some (Some u) -> u < nuv) ->
  (forall w q, nthz search w = Some q -> w < nuv) ->
  missing_vertices P near ls search pts v uv nuv rel = Ok (uv', nuv', rel') ->
  extends uv uv' /\ nuv <= nuv' /\ grown (line_on uv') rel rel' /\
  (forall i p, nth_error pts i = Some p -> vertex_done uv uv' nuv nuv' (v + Z.of_nat i) p) /\
  (forall x, ~ (v <= x < v + lenz pts) -> nthz uv' x = nthz uv x) /\
  (forall x u, nthz uv' x = Some (Some u) -> u < nuv') /\
  fresh_distinct uv' nuv.
Proof.
  induction pts as [|p r IH]; intros v uv nuv rel uv' nuv' rel' Hb Hs H; cbn [missing_vertices] in H.
  - injection H as <- <- <-. split; [split; auto|]. split; [lia|]. split; [constructor|].
    split; [intros [|i] p Hp; discriminate|]. split; [auto|]. split; [assumption|].
    intros x y u Hu Hx Hy. apply Hb in Hx. lia.
  - apply bind_ok in H as [o [Ho H]]. unfold idxz in Ho. destruct (nthz uv v) as [o'|] eqn:Ev; [|discriminate]. injection Ho as ->.
    assert (Shift : forall x, ~ (v <= x < v + lenz (p :: r)) -> ~ (v + 1 <= x < v + 1 + lenz r)).
    { unfold lenz. cbn [List.length]. intros. lia. }
    assert (Sv : ~ (v + 1 <= v < v + 1 + lenz r)) by lia.
    assert (Case : forall u uv1 nuv1 rel1, nthz uv v = Some None -> setz uv v (Some u) = Ok uv1 -> nuv <= nuv1 -> u < nuv1 ->
              ((neighbor p u /\ forall w, neighbor p w -> w = u) \/ ((forall w, ~ neighbor p w) /\ nuv <= u < nuv1)) ->
              (u < nuv \/ u = nuv /\ nuv1 = nuv + 1) ->
              grown (line_on uv1) rel rel1 ->
              missing_vertices P near ls search r (v + 1) uv1 nuv1 rel1 = Ok (uv', nuv', rel') ->
              extends uv uv' /\ nuv <= nuv' /\ grown (line_on uv') rel rel' /\
              (forall i q, nth_error (p :: r) i = Some q -> vertex_done uv uv' nuv nuv' (v + Z.of_nat i) q) /\
              (forall x, ~ (v <= x < v + lenz (p :: r)) -> nthz uv' x = nthz uv x) /\
              (forall x u, nthz uv' x = Some (Some u) -> u < nuv') /\ fresh_distinct uv' nuv).
    { intros u uv1 nuv1 rel1 Ev' Es Hn Hu Hnb Hu2 Hg Hm.
      pose proof (extends_set _ _ _ _ Ev' Es) as X1. pose proof (setz_spec _ _ _ _ Es) as [L1 [S1 O1]].
      destruct (IH (v + 1) uv1 nuv1 rel1 uv' nuv' rel') as [X2 [N2 [G2 [V2 [U2 [B2 F2]]]]]]; auto.
      { intros x y Hx. destruct (Z.eq_dec x v) as [->|Hne]; [rewrite S1 in Hx; injection Hx as <-; assumption|].
        rewrite O1 in Hx by assumption. apply Hb in Hx. lia. }
      { intros w q Hw. apply Hs in Hw. lia. }
      split; [eapply extends_trans; eauto|]. split; [lia|].
      split; [eapply grown_trans; [eapply grown_weak; [|exact Hg]; intros k; now apply extends_on|assumption]|].
      split.
      { intros [|i] q Hq; cbn in Hq.
        - injection Hq as <-. rewrite Z.add_0_r. unfold vertex_done. rewrite Ev'. exists u. split; [rewrite U2 by assumption; assumption|].
          destruct Hnb as [Hnb|[Hnb Hr]]; [now left|right; split; [assumption|lia]].
        - specialize (V2 i q Hq). replace (v + Z.of_nat (S i)) with (v + 1 + Z.of_nat i) by lia.
          unfold vertex_done in *. rewrite O1 in V2 by lia. destruct (nthz uv (v + 1 + Z.of_nat i)) as [[y|]|]; auto.
          destruct V2 as [y [Y1 Y2]]. exists y. split; [assumption|]. destruct Y2 as [Y2|[Y2 Y3]]; [now left|right; split; [assumption|lia]]. }
      split.
      { intros x Hx. rewrite U2 by auto. apply O1. intros ->. apply Hx. unfold lenz. cbn [List.length]. lia. }
      split; [assumption|].
      intros x y w Hw Hx Hy. destruct (Z_lt_le_dec w nuv1) as [Hlt|Hge]; [|now apply (F2 x y w)].
      destruct Hu2 as [Hu2|[-> ->]].
      - (* w < nuv1 = nuv or between: only vertices set before have such numbers *)
        assert (forall z, nthz uv' z = Some (Some w) -> False); [|exfalso; eauto].
        intros z Hz. (* w in [nuv, nuv1): cannot come from uv, nor from the search *)
        destruct (nthz uv z) as [[c|]|] eqn:Ez.
        + pose proof (proj2 (extends_trans _ _ _ X1 X2) _ _ Ez) as K. rewrite Hz in K. injection K as <-. apply Hb in Ez. lia.
        + destruct (Z.eq_dec z v) as [->|Hzv]; [rewrite U2, S1 in Hz by assumption; injection Hz as <-; lia|].
          destruct (Z_le_dec (v + 1) z) as [Hz1|Hz1]; [destruct (Z_lt_dec z (v + 1 + lenz r)) as [Hz2|Hz2]|].
          * assert (Hq : exists q, nth_error r (Z.to_nat (z - (v + 1))) = Some q).
            { destruct (nth_error r (Z.to_nat (z - (v + 1)))) eqn:Eq; [eauto|]. apply nth_error_None in Eq. unfold lenz in Hz2. lia. }
            destruct Hq as [q Hq]. specialize (V2 _ _ Hq). unfold vertex_done in V2.
            replace (v + 1 + Z.of_nat (Z.to_nat (z - (v + 1)))) with z in V2 by lia. rewrite O1, Ez in V2 by assumption.
            destruct V2 as [y' [Y1 Y2]]. rewrite Hz in Y1. injection Y1 as <-.
            destruct Y2 as [[[q' [Y2 _]] _]|[_ Y2]]; [apply Hs in Y2; lia|lia].
          * rewrite U2, O1, Ez in Hz by lia. discriminate.
          * rewrite U2, O1, Ez in Hz by lia. discriminate.
        + assert (nthz uv' z = None); [|congruence]. destruct X1 as [XL1 _], X2 as [XL2 _].
          unfold nthz in *. rewrite <- XL2, <- XL1. destruct ((0 <=? z) && (z <? Z.of_nat (List.length uv))) eqn:Q; [|reflexivity].
          apply andb_true_iff in Q as [Q1 Q2]. apply Z.leb_le in Q1. apply Z.ltb_lt in Q2.
          apply nth_error_None in Ez. lia.
      - (* w = nuv: only vertex v *)
        assert (w = nuv) as -> by lia.
        assert (Only : forall z, nthz uv' z = Some (Some nuv) -> z = v); [|transitivity v; [auto|symmetry; auto]].
        intros z Hz. destruct (Z.eq_dec z v) as [->|Hzv]; [reflexivity|exfalso].
        destruct (nthz uv z) as [[c|]|] eqn:Ez.
        + pose proof (proj2 (extends_trans _ _ _ X1 X2) _ _ Ez) as K. rewrite Hz in K. injection K as <-. apply Hb in Ez. lia.
        + destruct (Z_le_dec (v + 1) z) as [Hz1|Hz1]; [destruct (Z_lt_dec z (v + 1 + lenz r)) as [Hz2|Hz2]|].
          * assert (Hq : exists q, nth_error r (Z.to_nat (z - (v + 1))) = Some q).
            { destruct (nth_error r (Z.to_nat (z - (v + 1)))) eqn:Eq; [eauto|]. apply nth_error_None in Eq. unfold lenz in Hz2. lia. }
            destruct Hq as [q Hq]. specialize (V2 _ _ Hq). unfold vertex_done in V2.
            replace (v + 1 + Z.of_nat (Z.to_nat (z - (v + 1)))) with z in V2 by lia. rewrite O1, Ez in V2 by assumption.
            destruct V2 as [y' [Y1 Y2]]. rewrite Hz in Y1. injection Y1 as <-.
            destruct Y2 as [[[q' [Y2 _]] _]|[_ Y2]]; [apply Hs in Y2; lia|lia].
          * rewrite U2, O1, Ez in Hz by lia. discriminate.
          * rewrite U2, O1, Ez in Hz by lia. discriminate.
        + assert (nthz uv' z = None); [|congruence]. destruct X1 as [XL1 _], X2 as [XL2 _].
          unfold nthz in *. rewrite <- XL2, <- XL1. destruct ((0 <=? z) && (z <? Z.of_nat (List.length uv))) eqn:Q; [|reflexivity].
          apply andb_true_iff in Q as [Q1 Q2]. apply Z.leb_le in Q1. apply Z.ltb_lt in Q2.
          apply nth_error_None in Ez. lia. }
    assert (NB : forall w, In w (neighbors P near p 0 search) <-> neighbor p w).
    { intros w. rewrite neighbors_spec, Z.sub_0_r. reflexivity. }
    destruct o as [u|].
    + destruct (IH _ _ _ _ _ _ _ Hb Hs H) as [X2 [N2 [G2 [V2 [U2 [B2 F2]]]]]]. split; [assumption|]. split; [assumption|]. split; [assumption|].
      split; [|split; [intros x Hx; apply U2; auto|split; assumption]].
      intros [|i] q Hq; cbn in Hq.
      * rewrite Z.add_0_r. unfold vertex_done. rewrite Ev. now apply X2.
      * replace (v + Z.of_nat (S i)) with (v + 1 + Z.of_nat i) by lia. auto.
    + destruct (neighbors P near p 0 search) as [|w [|w2 t]] eqn:En; [| |discriminate].
      * apply bind_ok in H as [uv1 [Es H]]. apply (Case nuv uv1 (nuv + 1) rel); auto; try lia; [|constructor].
        right. split; [intros w Hw; apply NB in Hw; destruct Hw|lia].
      * apply bind_ok in H as [uv1 [Es H]].
        assert (Hw : neighbor p w) by (apply NB; now left).
        assert (Hwn : w < nuv) by (destruct Hw as [q [Hq _]]; eauto).
        apply (Case w uv1 nuv (internal_lines P uv1 w 0 ls rel)); auto; try lia.
        -- left. split; [assumption|]. intros w' Hw'. apply NB in Hw'. destruct Hw' as [<-|[]]; reflexivity.
        -- apply internal_lines_grown. intros j x Hj. assumption.
Qed.

Theorem C77_last_pass : forall (s : LSurf P) uv nuv rel uv' nuv' rel',
  List.length uv = List.length (ls_points P s) ->
  (forall x u, nthz uv x = Some (Some u) -> u < nuv) -> lenz search = nuv ->
  missing_vertices P near ls search (ls_points P s) 0 uv nuv rel = Ok (uv', nuv', rel') ->
  (* every vertex ends with a unique vertex, kept when there was one, that of its only neighbour
     when there is one, a new one not shared on the surface otherwise *)
  (forall v p, nthz (ls_points P s) v = Some p -> vertex_done uv uv' nuv nuv' v p) /\
  fresh_distinct uv' nuv /\
  (* relations are kept; those added are internal, of lines that have all their vertices on the surface *)
  exists added, rel' = rel ++ map (fun k => (k, true)) added /\ NoDup added /\
    (forall k, In k added -> ~ In (k, true) rel /\ line_on uv' k).
Proof.
  intros s uv nuv rel uv' nuv' rel' HL Hb Hs H.
  assert (Hs' : forall w q, nthz search w = Some q -> w < nuv).
  { intros w q Hw. unfold nthz in Hw. destruct (0 <=? w); [|discriminate]. destruct (Z.ltb_spec w (Z.of_nat (List.length search))); [|discriminate].
    unfold lenz in Hs. lia. }
  destruct (missing_spec _ _ _ _ _ _ _ _ Hb Hs' H) as [X [N [G [V [U [B F]]]]]].
  split; [|split; [assumption|]].
  - intros v p Hp. unfold nthz in Hp. destruct (Z.leb_spec 0 v); [|discriminate]. destruct (v <? _); [|discriminate]. cbn [andb] in Hp.
    specialize (V _ _ Hp). now replace (0 + Z.of_nat (Z.to_nat v)) with v in V by lia.
  - clear -G. induction G as [r|r k r' Hk Ok G [added [-> [ND HA]]]].
    + exists []. rewrite app_nil_r. repeat split; [constructor|contradiction..].
    + exists (k :: added). cbn [map]. rewrite <- app_assoc. split; [reflexivity|]. split.
      * constructor; [|assumption]. intros Hi. apply HA in Hi as [Hi _]. apply Hi. apply in_or_app. right. now left.
      * intros j [<-|Hj]; [auto|]. apply HA in Hj as [Hj1 Hj2]. split; [|assumption]. intros Hi. apply Hj1. apply in_or_app. now left.
Qed.
End C77.
Print Assumptions C77_last_pass.
(** The last pass on a surface of four points: vertex 0 has unique vertex 0, vertices 1 and 2 are at
    the points of unique vertices 1 and 2, vertex 3 is alone. The line through 0, 1 and 2 becomes
    internal. *)
Example C77_example :
  missing_vertices Z Z.eqb [mkLine Z 0 2 [10; 11; 12] [0; 1; 2]] [10; 11; 12] [10; 11; 12; 13] 0
    [Some 0; None; None; None] 3 [] = Ok ([Some 0; Some 1; Some 2; Some 3], 4, [(0, true)]).
Proof. reflexivity. Qed.
(** Two unique vertices near the same vertex: the file is refused *)
Example C77_several : missing_vertices Z within_one [] [10; 11] [10] 0 [None] 2 [] = Throw ExData.
Proof. reflexivity. Qed.

(** ** C78: the unique vertices of the lines, and of the surfaces along them *)
Section C78.
Variables (P : Type) (near : P -> P -> bool).

(** A line has one unique vertex per point, starts at that of its first corner and ends at that of
    its second one *)
Definition line_ends (l : Line P) (inner : list Z) : Prop :=
  ln_uv P l = ln_c0 P l :: inner ++ [ln_c1 P l] /\ List.length (ln_uv P l) = List.length (ln_points P l).
(** The unique vertices strictly between the corners, all lines together: new and all distinct *)
Definition lines_numbered (first : Z) (lines : list (Line P)) (n : Z) : Prop :=
  exists inners, Forall2 line_ends lines inners /\ NoDup (concat inners) /\
    first <= n /\ forall u, In u (concat inners) -> first <= u < n.

Lemma rangez_in a k u : In u (rangez a k) -> a <= u < a + Z.of_nat k.
Proof. intros H. apply in_rangez in H. lia. Qed.
Lemma rangez_nodup a k : NoDup (rangez a k).
Proof.
  revert a. induction k as [|k IH]; intros a; cbn [rangez]; [constructor|]. constructor; [|apply IH].
  intros H. apply rangez_in in H. lia.
Qed.
Lemma rangez_len a k : List.length (rangez a k) = k.
Proof. revert a. induction k as [|k IH]; intros a; cbn [rangez]; simpl; auto. Qed.
Lemma find_or_create_numbered first ls n d ls' n' x : lines_numbered first ls n -> (2 <= List.length (d_points P d))%nat ->
  find_or_create_line P near (ls, n) d = ((ls', n'), x) -> lines_numbered first ls' n'.
Proof.
  intros [inners [F [ND [Hn Hr]]]] Hd E. unfold find_or_create_line in E.
  destruct (search_line P (are_lines_equal P near d) (d_c0 P d) (d_c1 P d) 0 ls);
    [injection E as <- <- <-; exists inners; auto|].
  destruct (search_line P (are_lines_reverse_equal P near d) (d_c1 P d) (d_c0 P d) 0 ls);
    [injection E as <- <- <-; exists inners; auto|].
  unfold create_line in E. injection E as <- <- <-. set (k := (List.length (d_points P d) - 2)%nat).
  exists (inners ++ [rangez n k]). split; [|split; [|split]].
  - apply Forall2_app; [assumption|]. constructor; [|constructor]. split; [reflexivity|].
    cbn [ln_uv ln_points List.length]. rewrite app_length, rangez_len. cbn [List.length]. unfold k. lia.
  - rewrite concat_app. cbn [concat]. rewrite app_nil_r. clear -ND Hr.
    revert ND Hr. generalize (concat inners) as l. induction l as [|y l IH]; intros ND Hr; [apply rangez_nodup|].
    inversion ND as [|? ? H1 H2]; subst. cbn [app]. constructor.
    + intros Hi. apply in_app_or in Hi as [Hi|Hi]; [contradiction|]. apply rangez_in in Hi.
      specialize (Hr y (or_introl eq_refl)). lia.
    + apply IH; [assumption|]. intros u Hu. apply Hr. now right.
  - lia.
  - intros u Hu. rewrite concat_app in Hu. cbn [concat] in Hu. rewrite app_nil_r in Hu. apply in_app_or in Hu as [Hu|Hu].
    + apply Hr in Hu. lia.
    + apply rangez_in in Hu. lia.
Qed.
Theorem C78_lines_numbered : forall nb_corners ds lines n ids, 0 <= nb_corners ->
  Forall (fun d => (2 <= List.length (d_points P d))%nat) ds ->
  number_lines P near ([], nb_corners) ds = ((lines, n), ids) ->
  lines_numbered nb_corners lines n.
Proof.
  intros nb ds lines n ids Hnb HF H.
  assert (G : forall ls m lines n ids, lines_numbered nb ls m -> number_lines P near (ls, m) ds = ((lines, n), ids) -> lines_numbered nb lines n).
  { clear H. induction HF as [|d ds Hd HF IH]; intros ls m lines' n' ids' HN H; cbn [number_lines] in H; [injection H as <- <- <-; assumption|].
    destruct (find_or_create_line P near (ls, m) d) as [[ls1 m1] x] eqn:E. destruct (number_lines P near (ls1, m1) ds) as [[ls2 m2] r] eqn:E2.
    injection H as <- <- <-. apply (IH ls1 m1 ls2 m2 r); [|assumption]. eapply find_or_create_numbered; eauto. }
  apply (G [] nb lines n ids); [|assumption]. exists []. repeat split; try constructor; try lia; contradiction.
Qed.

(** All the border pieces of a surface are registered *)
Lemma last_two (a : Z * list Z) l : (2 <= List.length l)%nat -> last_event (a :: l) = last_event l.
Proof.
  intros H. destruct (rev_two a l H) as [x [y [t [t' [E1 E2]]]]]. unfold last_event. now rewrite E1, E2.
Qed.
Lemma events_cover n l : (List.length l <= n)%nat -> (2 <= List.length l)%nat -> sorted (map fst l) -> last_kept l ->
  map event_data (pair_events l ++ last_event l) = l.
Proof.
  revert l. induction n as [|n IH]; intros l Hn Hl Hs Hm; [lia|].
  destruct l as [|a [|b r]]; [simpl in Hl; lia..|]. cbn [pair_events].
  assert (Hs2 := Hs). cbn [map] in Hs2. apply sorted_inv in Hs2 as [La Hs1]. assert (Hs2 := Hs1). apply sorted_inv in Hs2 as [Lb Hsr].
  destruct (Z.eqb_spec (fst a) (fst b)) as [E|E].
  - cbn [app map event_data]. rewrite <- !surjective_pairing. f_equal. f_equal. destruct r as [|c [|d r]].
    + unfold last_event. cbn [rev app]. now rewrite (proj2 (Z.eqb_eq (fst a) (fst b))).
    + unfold last_event. cbn [rev app].
      destruct (Z.eqb_spec (fst b) (fst c)) as [Ec|Ec]; [|cbn; now rewrite <- surjective_pairing].
      exfalso. apply (Hm (fst c)).
      * cbn [map In]. intros y [<-|[<-|[<-|[]]]]; lia.
      * unfold times_met. cbn [map count_occ]. rewrite E, Ec. destruct (Z.eq_dec (fst c) (fst c)); [|congruence]. split; [exists 1%nat; reflexivity|lia].
    + rewrite last_two by (simpl; lia). rewrite last_two by (simpl; lia). apply IH; [simpl in *; lia|simpl; lia|exact Hsr|].
      intros x Hx [[k Ho] Ht]. apply (Hm x).
      * intros y Hy. cbn [map In] in Hy. assert (fst b <= fst c) by (apply Lb; now left). assert (fst c <= x) by (apply Hx; now left).
        destruct Hy as [<-|[<-|Hy]]; [lia|lia|]. apply Hx. exact Hy.
      * unfold times_met in *. cbn [map] in *. rewrite E. set (q := fst c :: fst d :: map fst r) in *.
        cbn [count_occ]. destruct (Z.eq_dec (fst b) x); [split; [exists (S k); lia|lia]|split; [exists k; lia|lia]].
  - cbn [app map event_data]. rewrite <- surjective_pairing. f_equal. destruct r as [|c r].
    + unfold last_event. cbn [rev app pair_events]. rewrite (proj2 (Z.eqb_neq (fst a) (fst b))) by assumption.
      cbn. now rewrite <- surjective_pairing.
    + rewrite last_two by (simpl; lia). apply (IH (b :: c :: r)); [simpl in *; lia|simpl; lia|exact Hs1|].
      intros x Hx [[k Ho] Ht]. apply (Hm x).
      * intros y Hy. cbn [map In] in Hy. assert (fst a <= fst b) by (apply La; now left). assert (fst b <= x) by (apply Hx; now left).
        destruct Hy as [<-|Hy]; [lia|]. apply Hx. exact Hy.
      * assert (fst b <= x) by (apply Hx; now left). assert (fst a <= fst b) by (apply La; now left).
        unfold times_met in *. cbn [map] in *. set (q := fst b :: fst c :: map fst r) in *.
        cbn [count_occ]. destruct (Z.eq_dec (fst a) x); [lia|]. split; [exists k; lia|lia].
Qed.
Lemma insert_line_perm x l : Permutation (insert_line x l) (x :: l).
Proof.
  induction l as [|y r IH]; [reflexivity|]. cbn [insert_line]. destruct (fst x <=? fst y); [reflexivity|].
  rewrite IH. apply perm_swap.
Qed.
Lemma sort_lines_perm l : Permutation (sort_lines l) l.
Proof. induction l as [|x l IH]; [reflexivity|]. cbn [sort_lines fold_right]. rewrite insert_line_perm. now constructor. Qed.
Lemma surface_events_perm l : (2 <= List.length l)%nat -> last_kept l ->
  Permutation (map event_data (surface_events l)) l.
Proof.
  intros Hl Hm. unfold surface_events. pose proof (sort_lines_perm l) as PL.
  rewrite (events_cover _ _ (le_n _)); [assumption|now rewrite (Permutation_length PL)| |].
  - rewrite sort_lines_fst. apply sort_sorted.
  - intros x Hx. unfold times_met. rewrite (proj1 (Permutation_count_occ Z.eq_dec _ _) (Permutation_map fst PL)).
    apply Hm. intros y Hy. apply Hx. now apply (Permutation_in _ (Permutation_map fst (Permutation_sym PL))).
Qed.

(** Assignments (vertex, unique vertex) *)
Definition consistent (A : list (Z * Z)) : Prop := forall i u u', In (i, u) A -> In (i, u') A -> u = u'.
Lemma set_all_ok A idx : consistent A -> forall us uv, List.length idx = List.length us ->
  Forall (fun i => 0 <= i < lenz uv) idx -> incl (combine idx us) A ->
  exists uv', set_all uv idx us = Ok uv' /\ List.length uv' = List.length uv /\
    (forall i u, In (i, u) (combine idx us) -> nthz uv' i = Some (Some u)) /\
    (forall i u, In (i, u) A -> nthz uv i = Some (Some u) -> nthz uv' i = Some (Some u)) /\
    (forall j, ~ In j idx -> nthz uv' j = nthz uv j).
Proof.
  intros HA. induction idx as [|i idx IH]; intros [|u us] uv HL HR HI; try discriminate.
  - exists uv. cbn. repeat split; auto. contradiction.
  - apply Forall_cons_iff in HR as [Hi HR]. cbn [set_all combine] in *.
    assert (Es : exists uv1, setz uv i (Some u) = Ok uv1).
    { unfold setz, lenz in *. rewrite (proj2 (Z.leb_le _ _)), (proj2 (Z.ltb_lt _ _)) by lia. eexists. reflexivity. }
    destruct Es as [uv1 Es]. destruct (setz_spec _ _ _ _ Es) as [L1 [S1 O1]].
    destruct (IH us uv1) as [uv' [E [L [Q [K O]]]]].
    { simpl in HL. lia. }
    { unfold lenz in *. now rewrite L1. }
    { intros x Hx. apply HI. now right. }
    exists uv'. rewrite Es. cbn [bind]. split; [assumption|]. split; [congruence|]. split; [|split].
    + intros j w [H|H]; [|auto]. injection H as <- <-. apply K; [apply HI; now left|assumption].
    + intros j w Hj Hw. apply K; [assumption|]. destruct (Z.eq_dec j i) as [->|Hne]; [|now rewrite O1].
      rewrite S1. f_equal. f_equal. apply (HA i); [apply HI; now left|assumption].
    + intros j Hj. rewrite O by (intros Hx; apply Hj; now right). apply O1. intros ->. apply Hj. now left.
Qed.

Variables (s : LSurf P) (uv : uvs).
(** The vertices of a line strictly between its corners *)
Definition inner_vertices (d : LineData P) : list Z := removelast (tl (d_indices P d)).
Definition registered (lines : list (Line P)) (x : Z * list Z) (uv' : uvs) : Prop :=
  exists l, nthz lines (fst x) = Some l /\ Forall2 (fun i u => nthz uv' i = Some (Some u)) (snd x) (ln_uv P l).

Lemma inner_of (a b : Z) inner : removelast (tl (a :: inner ++ [b])) = inner.
Proof. cbn [tl]. apply removelast_last. Qed.
Lemma f2_length {A B} (R : A -> B -> Prop) a b : Forall2 R a b -> List.length a = List.length b.
Proof. induction 1; simpl; congruence. Qed.
Lemma f2_combine {A B} (a : list A) (b : list B) : List.length a = List.length b ->
  Forall2 (fun x y => In (x, y) (combine a b)) a b.
Proof.
  revert b. induction a as [|x a IH]; intros [|y b] H; try discriminate; constructor; [now left|].
  specialize (IH b ltac:(simpl in H; lia)). clear H. 
  assert (G : forall c d e f, Forall2 (fun x y => In (x, y) (combine a b)) c d -> Forall2 (fun x0 y0 => In (x0, y0) (combine (e :: a) (f :: b))) c d).
  { intros c d e f H. induction H; constructor; [right; assumption|assumption]. }
  apply G, IH.
Qed.
Lemma combine_app {A B} (a a' : list A) (b b' : list B) : List.length a = List.length b ->
  combine (a ++ a') (b ++ b') = combine a b ++ combine a' b'.
Proof. revert b. induction a as [|x a IH]; intros [|y b] H; try discriminate; [reflexivity|]. cbn. f_equal. apply IH. simpl in H. lia. Qed.

(** What an entry assigns: the unique vertices of corners to corners, others to the inner vertices *)
Lemma entry_assign lines inners d x l :
  Forall2 line_ends lines inners ->
  between_corners P s uv d -> nthz lines (fst x) = Some l -> aligned P near d l (snd x) ->
  List.length (snd x) = List.length (ln_uv P l) /\
  (forall i, In i (snd x) -> exists o, nthz uv i = Some o) /\
  exists mid il, (mid = inner_vertices d \/ mid = rev (inner_vertices d)) /\
  forall i u, In (i, u) (combine (snd x) (ln_uv P l)) ->
    nthz uv i = Some (Some u) \/ (nthz uv i = Some None /\ In (i, u) (combine mid il)).
Proof.
  intros HF [a [inner [b [Ei [Ha [Hb [Hin HP]]]]]]] Hl Hal.
  assert (LE : exists il, line_ends l il).
  { unfold nthz in Hl. destruct (_ && _); [|discriminate]. revert Hl. generalize (Z.to_nat (fst x)) as m. clear -HF.
    induction HF as [|y il lines inners H F IH]; intros [|m] H1; try discriminate; cbn in H1; [injection H1 as ->; eauto|eauto]. }
  destruct LE as [il [E1 E2]].
  assert (HPL : List.length (d_points P d) = List.length (d_indices P d)) by (symmetry; eapply f2_length; eassumption).
  assert (Iv : inner_vertices d = inner) by (unfold inner_vertices; rewrite Ei; apply inner_of).
  assert (Lil : List.length il = List.length inner).
  { assert (HL : List.length (ln_points P l) = List.length (d_points P d)).
    { destruct Hal as [[_ [_ [_ H]]]|[_ [_ [_ H]]]]; apply f2_length in H; [assumption|now rewrite rev_length in H]. }
    rewrite E1 in E2. rewrite HL, HPL, Ei in E2. cbn [List.length] in E2. rewrite !app_length in E2. cbn [List.length] in E2. lia. }
  assert (HO : forall i, In i (a :: inner ++ [b]) -> exists o, nthz uv i = Some o).
  { intros i [<-|H]; [eauto|]. apply in_app_or in H as [H|[<-|[]]]; [|eauto]. apply (proj1 (Forall_forall _ _) Hin) in H. eauto. }
  rewrite E1. destruct Hal as [[Ex [C0 [C1 _]]]|[Ex [C0 [C1 _]]]]; rewrite Ex, Ei.
  - split; [cbn [List.length]; rewrite !app_length; simpl; lia|]. split; [auto|].
    exists inner, il. split; [left; congruence|].
    intros i u H. cbn [combine] in H. rewrite combine_app in H by congruence. destruct H as [H|H].
    + injection H as <- <-. left. congruence.
    + apply in_app_or in H as [H|H].
      * right. split; [|assumption]. apply in_combine_l in H. now apply (proj1 (Forall_forall _ _) Hin).
      * destruct H as [H|[]]. injection H as <- <-. left. congruence.
  - cbn [rev]. rewrite rev_app_distr. cbn [rev app].
    split; [cbn [List.length]; rewrite !app_length, rev_length; simpl; lia|].
    split. { intros i H. apply HO. cbn [In] in H |- *. rewrite !in_app_iff in *. rewrite <- in_rev in H. cbn [In] in *. tauto. }
    exists (rev inner), il. split; [right; congruence|].
    intros i u H. cbn [combine] in H. rewrite combine_app in H by (rewrite rev_length; congruence). destruct H as [H|H].
    + injection H as <- <-. left. congruence.
    + apply in_app_or in H as [H|H].
      * right. split; [|assumption]. apply in_combine_l in H. apply in_rev in H. now apply (proj1 (Forall_forall _ _) Hin).
      * destruct H as [H|[]]. injection H as <- <-. left. congruence.
Qed.
Lemma combine_nodup {A B} (a : list A) (b : list B) i u u' : NoDup a -> In (i, u) (combine a b) -> In (i, u') (combine a b) -> u = u'.
Proof.
  revert b. induction a as [|x a IH]; intros [|y b] ND H1 H2; try contradiction. cbn [combine In] in *. inversion ND; subst.
  destruct H1 as [H1|H1], H2 as [H2|H2]; try congruence; [|  |eauto].
  - apply in_combine_l in H2. congruence.
  - apply in_combine_l in H1. congruence.
Qed.
Lemma nodup_flat {A B} (f : A -> list B) l : NoDup (flat_map f l) -> forall p q a b i,
  nth_error l p = Some a -> nth_error l q = Some b -> In i (f a) -> In i (f b) -> p = q.
Proof.
  induction l as [|x l IH]; intros ND [|p] [|q] a b i Ha Hb Hi Hj; try discriminate; cbn in Ha, Hb; [reflexivity| | |].
  - injection Ha as ->. destruct (NoDup_app_disj _ _ _ ND Hi). apply in_flat_map. exists b. split; [eapply nth_error_In; eassumption|assumption].
  - injection Hb as ->. destruct (NoDup_app_disj _ _ _ ND Hj). apply in_flat_map. exists a. split; [eapply nth_error_In; eassumption|assumption].
  - f_equal. apply NoDup_app_r in ND. eapply IH; eauto.
Qed.
Lemma nodup_flat_one {A B} (f : A -> list B) l : NoDup (flat_map f l) -> forall a, In a l -> NoDup (f a).
Proof.
  induction l as [|x l IH]; [contradiction|]. cbn [flat_map]. intros ND a [->|H]; [now apply NoDup_app_l in ND|].
  apply NoDup_app_r in ND. auto.
Qed.
Lemma f2_nth {A B} (R : A -> B -> Prop) a b : Forall2 R a b -> forall y, In y b -> exists p x, nth_error a p = Some x /\ nth_error b p = Some y /\ R x y.
Proof.
  induction 1 as [|x y a b H F IH]; intros z Hz; [contradiction|]. destruct Hz as [<-|Hz].
  - exists 0%nat, x. auto.
  - destruct (IH z Hz) as [p [w [H1 [H2 H3]]]]. exists (S p), w. auto.
Qed.
Lemma register_ok A lines evs : consistent A -> forall u0, List.length u0 = List.length uv ->
  (forall e, In e evs -> exists l, nthz lines (fst (event_data e)) = Some l /\
     List.length (snd (event_data e)) = List.length (ln_uv P l) /\
     (forall i, In i (snd (event_data e)) -> exists o, nthz uv i = Some o) /\
     incl (combine (snd (event_data e)) (ln_uv P l)) A) ->
  exists uv', foldM (register P lines) evs u0 = Ok uv' /\ List.length uv' = List.length uv /\
    (forall e, In e evs -> registered lines (event_data e) uv') /\
    (forall i u, In (i, u) A -> nthz u0 i = Some (Some u) -> nthz uv' i = Some (Some u)) /\
    (forall j, (forall e, In e evs -> ~ In j (snd (event_data e))) -> nthz uv' j = nthz u0 j).
Proof.
  intros HA. induction evs as [|e evs IH]; intros u0 HL H.
  - exists u0. cbn. repeat split; auto. contradiction.
  - destruct (H e (or_introl eq_refl)) as [l [Hl [Hlen [Hin Hincl]]]].
    destruct (set_all_ok A (snd (event_data e)) HA (ln_uv P l) u0 Hlen) as [u1 [E1 [L1 [Q1 [K1 O1]]]]].
    { apply Forall_forall. intros i Hi. destruct (Hin i Hi) as [o Ho]. unfold nthz in Ho. unfold lenz. rewrite HL.
      destruct (Z.leb_spec 0 i); [|discriminate]. destruct (Z.ltb_spec i (Z.of_nat (List.length uv))); [|discriminate]. lia. }
    { assumption. }
    destruct (IH u1) as [uv' [E [L [R [K O]]]]]; [congruence|intros e' He'; apply H; now right|].
    exists uv'. cbn [foldM]. unfold register at 1. destruct (event_data e) as [k idx] eqn:Ee. cbn [fst snd] in *.
    unfold idxz at 1. rewrite Hl. cbn [bind]. rewrite E1. cbn [bind]. split; [assumption|]. split; [assumption|]. split; [|split].
    + intros e' [<-|He']; [|auto]. rewrite Ee. exists l. split; [assumption|]. cbn [snd].
      pose proof (f2_combine idx (ln_uv P l) Hlen) as F2.
      assert (G : forall c d, Forall2 (fun x y => In (x, y) (combine idx (ln_uv P l))) c d -> Forall2 (fun i u => nthz uv' i = Some (Some u)) c d).
      { intros c d F. induction F; constructor; auto. }
      apply G, F2.
    + intros i u Hi Hu. auto.
    + intros j Hj. rewrite O by (intros e' He'; apply Hj; now right). apply O1. specialize (Hj e (or_introl eq_refl)). now rewrite Ee in Hj.
Qed.

(** [ds]: the border pieces of the surface, as computed (C75: each between two corners, no vertex
    inside two of them); [found]: the lines found for them (C76). *)
Theorem C78_surface_along_lines_partial : forall first lines n ds found,
  lines_numbered first lines n ->
  Forall (between_corners P s uv) ds -> NoDup (flat_map inner_vertices ds) ->
  Forall2 (fun d x => exists l, nthz lines (fst x) = Some l /\ aligned P near d l (snd x)) ds found ->
  (2 <= List.length found)%nat -> last_kept found ->
  exists uv', foldM (register P lines) (surface_events found) uv = Ok uv' /\
    (forall x, In x found -> registered lines x uv') /\
    (forall v c, nthz uv v = Some (Some c) -> nthz uv' v = Some (Some c)).
Proof.
  intros first lines n ds found [inners [LE _]] HB ND HF H2 Hm.
  set (A := flat_map (fun x => match nthz lines (fst x) with Some l => combine (snd x) (ln_uv P l) | None => [] end) found).
  assert (In_A : forall i u, In (i, u) A -> exists p d x l, nth_error ds p = Some d /\ nth_error found p = Some x /\
             nthz lines (fst x) = Some l /\ aligned P near d l (snd x) /\ In (i, u) (combine (snd x) (ln_uv P l))).
  { intros i u H. apply in_flat_map in H as [x [Hx H]]. destruct (f2_nth _ _ _ HF x Hx) as [p [d [N1 [N2 [l [Hl Ha]]]]]].
    rewrite Hl in H. exists p, d, x, l. auto. }
  assert (HA : consistent A).
  { intros i u u' Hu Hu'.
    destruct (In_A _ _ Hu) as [p [d [x [l [N1 [N2 [Hl [Ha Hc]]]]]]]].
    destruct (In_A _ _ Hu') as [p' [d' [x' [l' [N1' [N2' [Hl' [Ha' Hc']]]]]]]].
    pose proof (proj1 (Forall_forall _ _) HB d (nth_error_In _ _ N1)) as Bd.
    pose proof (proj1 (Forall_forall _ _) HB d' (nth_error_In _ _ N1')) as Bd'.
    destruct (entry_assign _ _ _ _ _ LE Bd Hl Ha) as [_ [_ [mid [il [Em Q]]]]].
    destruct (entry_assign _ _ _ _ _ LE Bd' Hl' Ha') as [_ [_ [mid' [il' [Em' Q']]]]].
    specialize (Q _ _ Hc). pose proof (Q' _ _ Hc') as Qc'.
    destruct Q as [Q|[Q1 Q2]], Qc' as [R|[R1 R2]]; try congruence.
    assert (Ii : In i (inner_vertices d)) by (apply in_combine_l in Q2; destruct Em; subst mid; [assumption|now apply in_rev]).
    assert (Ii' : In i (inner_vertices d')) by (apply in_combine_l in R2; destruct Em'; subst mid'; [assumption|now apply in_rev]).
    assert (p = p') by (eapply (nodup_flat inner_vertices ds ND p p' d d'); eauto). subst p'.
    assert (d' = d) by congruence. assert (x' = x) by congruence. subst d' x'. assert (l' = l) by congruence. subst l'.
    specialize (Q' _ _ Hc) as [Q'|[_ Q']]; [congruence|].
    apply (combine_nodup mid' il' i u u'); [|assumption|assumption].
    pose proof (nodup_flat_one _ _ ND d (nth_error_In _ _ N1)) as NDd. destruct Em' as [->| ->]; [assumption|now apply NoDup_rev]. }
  pose proof (surface_events_perm found H2 Hm) as PE.
  destruct (register_ok A lines (surface_events found) HA uv eq_refl) as [uv' [E [L [R [K O]]]]].
  { intros e He.
    assert (Hx : In (event_data e) found) by (apply (Permutation_in _ PE); now apply in_map).
    destruct (f2_nth _ _ _ HF _ Hx) as [p [d [N1 [N2 [l [Hl Ha]]]]]]. exists l. split; [assumption|].
    pose proof (proj1 (Forall_forall _ _) HB d (nth_error_In _ _ N1)) as Bd.
    destruct (entry_assign _ _ _ _ _ LE Bd Hl Ha) as [Q1 [Q2 _]]. split; [assumption|]. split; [assumption|].
    intros y Hy. apply in_flat_map. exists (event_data e). split; [assumption|]. now rewrite Hl. }
  exists uv'. split; [assumption|]. split.
  - intros x Hx. apply (Permutation_in _ (Permutation_sym PE)) in Hx. apply in_map_iff in Hx as [e [<- He]]. auto.
  - intros v c Hv. destruct (in_dec Z.eq_dec v (flat_map (fun e => snd (event_data e)) (surface_events found))) as [Hi|Hi].
    + apply in_flat_map in Hi as [e [He Hi]].
      assert (Hx : In (event_data e) found) by (apply (Permutation_in _ PE); now apply in_map).
      destruct (f2_nth _ _ _ HF _ Hx) as [p [d [N1 [N2 [l [Hl Ha]]]]]].
      pose proof (proj1 (Forall_forall _ _) HB d (nth_error_In _ _ N1)) as Bd.
      destruct (entry_assign _ _ _ _ _ LE Bd Hl Ha) as [Q1 [Q2 [mid [il [Em Q]]]]].
      assert (Hc : exists u, In (v, u) (combine (snd (event_data e)) (ln_uv P l))).
      { clear -Q1 Hi. revert Q1 Hi. generalize (snd (event_data e)) as a, (ln_uv P l) as b. induction a as [|y a IH]; intros [|z b] H1 H2; try discriminate; [contradiction..|].
        destruct H2 as [->|H2]; [exists z; now left|]. destruct (IH b ltac:(simpl in H1; lia) H2) as [u Hu]. exists u. now right. }
      destruct Hc as [u Hu]. destruct (Q _ _ Hu) as [Q3|[Q3 _]]; [|congruence].
      assert (u = c) by congruence. subst u. apply (K v c); [|assumption]. apply in_flat_map. exists (event_data e). split; [assumption|]. now rewrite Hl.
    + rewrite O; [assumption|]. intros e He Hv2. apply Hi. apply in_flat_map. eauto.
Qed.
End C78.
Print Assumptions C78_lines_numbered.
Print Assumptions C78_surface_along_lines_partial.

(** The two corners of the triangle again: both lines registered on it. The full statement, without
    the restriction to two border pieces, is false: nothing is registered for a single line
    (C44_single_line_refuted). *)
Example C78_example :
  let ds := [mkLineData Z 0 1 [10; 12; 11] [0; 2; 1]; mkLineData Z 1 0 [11; 10] [1; 0]] in
  let lines := [mkLine Z 0 1 [10; 12; 11] [0; 2; 1]; mkLine Z 1 0 [11; 10] [1; 0]] in
  number_lines Z Z.eqb ([], 2) ds = ((lines, 3), [(0, [0; 2; 1]); (1, [1; 0])]) /\
  foldM (register Z lines) (surface_events [(0, [0; 2; 1]); (1, [1; 0])]) [Some 0; Some 1; None] = Ok [Some 0; Some 1; Some 2].
Proof. split; reflexivity. Qed.
