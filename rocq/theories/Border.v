(** * Borders of a triangulated surface, from its triangles and adjacencies

    The other models (MlModel.v, MlLines.v, LsoLines.v) take the border loops of a surface as data.
    Here they are computed as the code does, from the triangles and the adjacencies of the mesh:
    - get_one_border_edge (/repo/include/geode/geosciences_io/model/internal/ml_output_impl.hpp 78-92);
    - the walk of add_corners_and_line_starts (same file 347-368);
    - SurfaceMesh::previous_on_border and next_on_border of OpenGeode, called there and in
      /repo/src/geode/geosciences_io/model/internal/ml_input.cpp 645, 662 and lso_input.cpp 665.
      Their code is not in /repo; they are modelled as they are in OpenGeode: take the previous
      (next) edge in the polygon and, while it is not on a border, go to the adjacent edge and take
      its previous (next) edge.  Called on an edge that is not on a border: [UB].
    A loop that visits more polygon edges than there are visits one twice, and never ends: [Hang]. *)
From Coq Require Import List ZArith Lia Bool Permutation.
From Verif Require Import Base GocadModel MeshModel TsModel.
Import ListNotations.
Local Open Scope list_scope.
Local Open Scope Z_scope.

(** PolygonEdge: the polygon and the local number of the edge *)
Definition pedge := (Z * Z)%type.
Definition pedge_eqb (a b : pedge) : bool := (fst a =? fst b) && (snd a =? snd b).
Lemma pedge_eqb_ok a b : pedge_eqb a b = true <-> a = b.
Proof.
  unfold pedge_eqb. destruct a, b. cbn [fst snd]. rewrite andb_true_iff, !Z.eqb_eq.
  split; [intros [-> ->]; reflexivity|intros H; injection H; auto].
Qed.
Lemma pedge_dec (a b : pedge) : {a = b} + {a <> b}.
Proof. destruct (pedge_eqb a b) eqn:E; [left; now apply pedge_eqb_ok|right; intros ->; rewrite (proj2 (pedge_eqb_ok b b) eq_refl) in E; discriminate]. Qed.

(** A triangulated surface: the vertices of the triangles and SurfaceMesh::polygon_adjacent_edge *)
Record TMesh := mkTMesh {
  tm_tris : list tri;
  tm_adj : pedge -> option pedge
}.

Section Mesh.
Variable m : TMesh.

(** SurfaceMesh::polygon_vertex for the three corners of a triangle *)
Definition tri_vertex (t : tri) (k : Z) : Z :=
  let '(a, b, c) := t in if k =? 0 then a else if k =? 1 then b else c.
(** The vertices of an edge: corner e of the polygon and corner (e + 1) % 3 (impl 324-327) *)
Definition ends (d : pedge) : Z * Z :=
  match nthz (tm_tris m) (fst d) with
  | Some t => (tri_vertex t (snd d), tri_vertex t ((snd d + 1) mod 3))
  | None => (-1, -1)
  end.
(** SurfaceMesh::previous_polygon_edge, next_polygon_edge *)
Definition previous_edge (d : pedge) : pedge := (fst d, (snd d + 2) mod 3).
Definition next_edge (d : pedge) : pedge := (fst d, (snd d + 1) mod 3).
(** The edges of all the triangles, in the order of the two loops of get_one_border_edge *)
Definition all_edges : list pedge :=
  flat_map (fun p => [(p, 0); (p, 1); (p, 2)]) (rangez 0 (List.length (tm_tris m))).
(** SurfaceMesh::is_edge_on_border *)
Definition on_border (d : pedge) : bool := match tm_adj m d with None => true | Some _ => false end.

(** The loops of previous_on_border and next_on_border: [turn] is the edge taken in a polygon *)
Fixpoint turn_around (turn : pedge -> pedge) (fuel : nat) (d : pedge) : res pedge :=
  match tm_adj m d with
  | None => Ok d
  | Some d' => match fuel with O => Hang | S f => turn_around turn f (turn d') end
  end.
Definition previous_on_border (d : pedge) : res pedge :=
  if on_border d then turn_around previous_edge (List.length all_edges) (previous_edge d) else UB.
Definition next_on_border (d : pedge) : res pedge :=
  if on_border d then turn_around next_edge (List.length all_edges) (next_edge d) else UB.

(** get_one_border_edge (impl 78-92) *)
Definition get_one_border_edge : option pedge := find on_border all_edges.

(** The loop of add_corners_and_line_starts (impl 361-367): the edges processed *)
Fixpoint walk_back (first : pedge) (fuel : nat) (cur : pedge) : res (list pedge) :=
  if pedge_eqb cur first then Ok []
  else match fuel with
       | O => Hang
       | S f => do n <- previous_on_border cur; do r <- walk_back first f n; Ok (cur :: r)
       end.
(** The edges processed from an edge on (impl 358-367) *)
Definition border_walk (first : pedge) : res (list pedge) :=
  do c <- previous_on_border first;
  do r <- walk_back first (List.length all_edges) c;
  Ok (first :: r).

(** add_corners_and_line_starts (impl 347-368) and process_surface_edge (318-345); [is_corner] tells
    the vertices whose unique vertex is also on a corner *)
Definition line_start_of (is_corner : Z -> bool) (offset : Z) (d : pedge) : list (Z * Z) :=
  let '(v0, v1) := ends d in if is_corner v1 then [(v1 + offset, v0 + offset)] else [].
Definition line_starts (is_corner : Z -> bool) (offset : Z) : res (list (Z * Z)) :=
  match get_one_border_edge with
  | None => Ok []
  | Some first => do l <- border_walk first; Ok (flat_map (line_start_of is_corner offset) l)
  end.

End Mesh.

(** ** Paths of a partial injection of a finite set *)
Section Paths.
Context {A : Type} (f : A -> option A) (E : list A).
(** [l] are the elements met from [x] to [y], [y] excluded *)
Inductive path : A -> list A -> A -> Prop :=
| path_nil : forall x, path x [] x
| path_cons : forall x y l z, f x = Some y -> path y l z -> path x (x :: l) z.
Lemma path_snoc x l y z : path x l y -> f y = Some z -> path x (l ++ [y]) z.
Proof. induction 1; intros H'; cbn [app]; [econstructor; [eassumption|constructor]|econstructor; eauto]. Qed.
Lemma path_app x l y l' z : path x l y -> path y l' z -> path x (l ++ l') z.
Proof. induction 1; intros P; cbn [app]; [assumption|econstructor; eauto]. Qed.

Hypothesis closed : forall x y, In x E -> f x = Some y -> In y E.
Hypothesis inj : forall x x' y, In x E -> In x' E -> f x = Some y -> f x' = Some y -> x = x'.

Lemma path_in x l y : In x E -> path x l y -> incl l E /\ In y E.
Proof.
  intros Hx P. induction P as [x|x y l z Hf P IH]; [split; [intros ? []|assumption]|].
  destruct IH as [I1 I2]; [eapply closed; eauto|]. split; [|assumption]. intros a [<-|Ha]; auto.
Qed.
(** The element before *)
Lemma path_pred x l y v : path x l y -> In v (l ++ [y]) -> v = x \/ exists w, In w l /\ f w = Some v.
Proof.
  induction 1 as [x|x y l z Hf P IH]; cbn [app].
  - intros [<-|[]]. now left.
  - intros [<-|H]; [now left|]. destruct (IH H) as [->|[w [Hw E1]]]; right; [exists x; split; [now left|assumption]|].
    exists w. split; [now right|assumption].
Qed.
(** A path from an element without antecedent has no repetition *)
Lemma nodup_snoc (l : list A) y : NoDup l -> ~ In y l -> NoDup (l ++ [y]).
Proof. intros ND N. apply (Permutation_NoDup (Permutation_cons_append l y)). now constructor. Qed.
Lemma path_last x l a y : path x (l ++ [a]) y -> path x l a /\ f a = Some y.
Proof.
  remember (l ++ [a]) as l0 eqn:El. intros P. revert l a El.
  induction P as [x|x y l0 z Hf P IH]; intros l' a El; [destruct l'; discriminate|].
  destruct l' as [|b l']; cbn [app] in El.
  - injection El as -> ->. inversion P; subst. split; [constructor|assumption].
  - injection El as <- El. destruct (IH _ _ El) as [Q1 Q2]. split; [econstructor; eassumption|assumption].
Qed.
Lemma path_nodup x l y : In x E -> (forall w, In w E -> f w <> Some x) -> path x l y -> NoDup (l ++ [y]).
Proof.
  intros Hx Hno. revert y. induction l as [|a l' IH] using rev_ind; intros y P.
  - constructor; [intros []|constructor].
  - apply path_last in P as [Q Ea]. pose proof (IH a Q) as ND. destruct (path_in _ _ _ Hx Q) as [Il Ia].
    apply nodup_snoc; [assumption|].
    intros H. destruct (path_pred _ _ _ _ Q H) as [->|[w [Hw Ew]]]; [now apply (Hno a Ia)|].
    assert (w = a) by (eapply inj; eauto). subst w.
    apply NoDup_remove_2 in ND. rewrite app_nil_r in ND. contradiction.
Qed.
(** It ends *)
Lemma path_ends x : In x E -> (forall w, In w E -> f w <> Some x) ->
  exists l y, path x l y /\ f y = None /\ (List.length l < List.length E)%nat.
Proof.
  intros Hx Hno.
  assert (G : forall n l y, path x l y -> (List.length E <= List.length l + n)%nat ->
    exists l' y', path x l' y' /\ f y' = None).
  { induction n as [|n IH]; intros l y P Hn.
    - pose proof (path_nodup _ _ _ Hx Hno P) as ND. destruct (path_in _ _ _ Hx P) as [Il Iy].
      assert (L : (List.length (l ++ [y]) <= List.length E)%nat).
      { apply NoDup_incl_length; [assumption|]. intros a Ha. apply in_app_or in Ha as [Ha|[<-|[]]]; auto. }
      rewrite app_length in L. cbn in L. lia.
    - destruct (f y) as [z|] eqn:Ey; [|eauto]. apply (IH (l ++ [y]) z); [now apply path_snoc|]. rewrite app_length. cbn. lia. }
  destruct (G (List.length E) [] x) as [l [y [P Ey]]]; [constructor|cbn; lia|].
  exists l, y. split; [assumption|]. split; [assumption|].
  pose proof (path_nodup _ _ _ Hx Hno P) as ND. destruct (path_in _ _ _ Hx P) as [Il Iy].
  assert (L : (List.length (l ++ [y]) <= List.length E)%nat).
  { apply NoDup_incl_length; [assumption|]. intros a Ha. apply in_app_or in Ha as [Ha|[<-|[]]]; auto. }
  rewrite app_length in L. cbn in L. lia.
Qed.
End Paths.
