(** * C72, C75, C93, C99: the borders of the surfaces, from their triangles *)
From Coq Require Import List ZArith Lia Bool Permutation Ascii String.
From Verif Require Import Base Text GocadModel LsoFacts MeshModel TsModel MlModel ExNum MlLines MlLinesFacts PropsMlLines LsoLines LsoLinesFacts
  PropsLsoLines Border BorderFacts BorderLoops.
Import ListNotations.
Local Open Scope list_scope.
Local Open Scope Z_scope.

(** ** C99: walking along a border *)
(** A border edge: it belongs to a triangle and has no adjacent one *)
Definition border_edge (m : TMesh) (d : pedge) : Prop := In d (all_edges m) /\ tm_adj m d = None.
(** The edges of [l] follow each other backwards around a border: each ends where the one visited
    before it begins, and the last is followed by the first *)
Definition closed_backwards (m : TMesh) (l : list pedge) : Prop :=
  exists x t, l = x :: t /\ forall p a b q, x :: t ++ [x] = p ++ a :: b :: q -> snd (ends m b) = fst (ends m a).

Lemma cycle_closed_backwards m l : good_mesh m -> cycle m l -> incl l (borders m) -> closed_backwards m l.
Proof.
  intros G [x [t [E C]]] I. exists x, t. split; [assumption|]. intros p a b q Ea. pose proof (C _ _ _ _ Ea) as Pa.
  assert (Ha : In a (borders m)).
  { apply I. rewrite E. assert (Hi : In a (x :: t ++ [x])) by (rewrite Ea; apply in_or_app; right; now left).
    change (x :: t ++ [x]) with ((x :: t) ++ [x]) in Hi. apply in_app_or in Hi as [Hi|[<-|[]]]; [assumption|now left]. }
  destruct (prev_border m G a Ha) as [y [Ey [_ [_ S]]]]. congruence.
Qed.

(** From any border edge the walk of the exporter ends; it has met border edges only, each once,
    following each other *)
Theorem C99_walk_ends : forall m first, good_mesh m -> border_edge m first ->
  exists l, border_walk m first = Ok (first :: l) /\ NoDup (first :: l) /\
    Forall (border_edge m) (first :: l) /\ closed_backwards m (first :: l).
Proof.
  intros m first G H. destruct (border_walk_ok m G first) as [l [W [N [I C]]]]; [now apply in_borders|].
  exists l. split; [assumption|]. split; [assumption|]. split.
  - apply Forall_forall. intros d Hd. apply in_borders, I, Hd.
  - now apply cycle_closed_backwards.
Qed.
Print Assumptions C99_walk_ends.

(** next_on_border undoes previous_on_border and conversely *)
Theorem C99_next_previous : forall m d, good_mesh m -> border_edge m d ->
  (exists y, Border.previous_on_border m d = Ok y /\ border_edge m y /\ snd (ends m y) = fst (ends m d) /\ Border.next_on_border m y = Ok d) /\
  (exists z, Border.next_on_border m d = Ok z /\ border_edge m z /\ fst (ends m z) = snd (ends m d) /\ Border.previous_on_border m z = Ok d).
Proof.
  intros m d G H. apply in_borders in H. split.
  - destruct (prev_border m G d H) as [y [E [Hy [N S]]]]. exists y. apply in_borders in Hy. auto.
  - destruct (border_loops_ok m G) as [ls [L [P [F _]]]].
    assert (Hl : In d (List.concat ls)) by (apply (Permutation_in _ (Permutation_sym P)); assumption).
    apply in_concat in Hl as [l [Hl Hd]]. rewrite Forall_forall in F. destruct (F l Hl) as [C _].
    destruct (cycle_pred m l d C Hd) as [z [Hz Ez]].
    assert (Bz : In z (borders m)) by (apply (Permutation_in _ P); apply in_concat; eauto).
    destruct (prev_border m G z Bz) as [y [Ey [_ [N S]]]]. assert (y = d) by congruence. subst y.
    exists z. apply in_borders in Bz. auto.
Qed.
Print Assumptions C99_next_previous.

(** The borders of a surface are cut into loops: each border edge is on exactly one, and the walk from
    an edge of a loop meets the edges of this loop *)
Theorem C99_loops : forall m, good_mesh m -> exists ls,
  (forall d, In d (List.concat ls) <-> border_edge m d) /\ NoDup (List.concat ls) /\ Forall (closed_backwards m) ls /\
  forall l d, In l ls -> In d l -> exists w, border_walk m d = Ok w /\ Permutation w l.
Proof.
  intros m G. destruct (border_loops_ok m G) as [ls [L [P [F _]]]]. exists ls.
  assert (I : forall d, In d (List.concat ls) <-> border_edge m d).
  { intros d. unfold border_edge. rewrite <- in_borders. split; apply Permutation_in; [assumption|now symmetry]. }
  assert (Il : forall l, In l ls -> incl l (borders m)).
  { intros l Hl d Hd. apply (Permutation_in _ P). apply in_concat. eauto. }
  assert (N : NoDup (List.concat ls)) by (apply (Permutation_NoDup (Permutation_sym P)), NoDup_filter, all_edges_nodup).
  rewrite Forall_forall in F.
  split; [assumption|]. split; [assumption|]. split.
  - apply Forall_forall. intros l Hl. apply cycle_closed_backwards; [assumption|apply F, Hl|now apply Il].
  - intros l d Hl Hd. destruct (border_walk_ok m G d (Il l Hl d Hd)) as [t [W [Nt [It Ct]]]]. exists (d :: t). split; [assumption|].
    destruct (F l Hl) as [C _].
    assert (Nl : NoDup l) by (apply (NoDup_concat_in ls); assumption).
    assert (S1 : Forall (fun a => In a l) (d :: t)).
    { apply (cycle_closed m); [assumption| |].
      - intros x Hx. injection Hx as <-. assumption.
      - intros a b Ha Eb. destruct (cycle_next m l a C Ha) as [b' [Hb' Eb']]. congruence. }
    rewrite Forall_forall in S1.
    apply NoDup_Permutation; [assumption|assumption|]. intros a. split; [apply S1|].
    (* the edges of [l] are met: going on from [d] along [l] *)
    intros Ha. apply in_split in Hd as [p [q El]].
    assert (K : forall q0 p0 y, l = p0 ++ y :: q0 -> In y (d :: t) -> forall z, In z q0 -> In z (d :: t)).
    { induction q0 as [|z q0 IH]; intros p0 y E Hy z' Hz'; [contradiction|].
      assert (Pz : In z (d :: t)).
      { destruct C as [x [t0 [E0 C]]]. assert (Pz : Border.previous_on_border m y = Ok z).
        { apply (C p0 y z (q0 ++ [x])). change (x :: t0 ++ [x]) with ((x :: t0) ++ [x]). rewrite <- E0, E, <- app_assoc. reflexivity. }
        destruct (cycle_next m _ y Ct Hy) as [b [Hb Eb]]. congruence. }
      destruct Hz' as [<-|Hz']; [assumption|].
      apply (IH (p0 ++ [y]) z); [now rewrite <- app_assoc|assumption|assumption]. }
    assert (Kd : forall z, In z (d :: q) -> In z (d :: t)) by (intros z [<-|Hz]; [now left|exact (K q p d El (or_introl eq_refl) z Hz)]).
    (* the first edge of [l] comes after the last *)
    assert (Kx : forall x r, l = x :: r -> In x (d :: t)).
    { intros x r E.
      assert (La : exists z, In z (d :: q) /\ Border.previous_on_border m z = Ok x).
      { destruct C as [x0 [t0 [E0 C]]]. assert (x0 = x) by congruence. subst x0.
        destruct (exists_last (l := d :: q)) as [q1 [z Ez]]; [discriminate|]. exists z. split; [rewrite Ez; apply in_or_app; right; now left|].
        apply (C (p ++ q1) z x []). change (x :: t0 ++ [x]) with ((x :: t0) ++ [x]). rewrite <- E0, El, Ez, <- !app_assoc. reflexivity. }
      destruct La as [z [Hz Ez]]. apply Kd in Hz. destruct (cycle_next m _ z Ct Hz) as [b [Hb Eb]]. congruence. }
    destruct l as [|x r]; [contradiction|]. destruct Ha as [<-|Ha]; [now apply (Kx x r)|].
    apply (K r [] x eq_refl); [now apply (Kx x r)|assumption].
Qed.
Print Assumptions C99_loops.

(** The adjacencies computed from triangles that have no directed edge in common are as supposed above,
    and the border edges are those whose opposite is in no triangle *)
Theorem C99_from_triangles : forall ts : list tri, NoDup (tri_edges ts) ->
  good_mesh (mesh_of ts) /\
  forall a b, (exists d, border_edge (mesh_of ts) d /\ ends (mesh_of ts) d = (a, b)) <-> In (a, b) (tri_edges ts) /\ ~ In (b, a) (tri_edges ts).
Proof.
  intros ts N. split; [now apply mesh_of_good|]. intros a b. split.
  - intros [d [H E]]. pose proof H as [Hd _]. split.
    + change ts with (tm_tris (mesh_of ts)). rewrite <- map_ends, <- E. now apply in_map.
    + apply in_borders in H. apply mesh_of_border in H; [|assumption|assumption]. rewrite E in H. exact H.
  - intros [Hi Hn]. change ts with (tm_tris (mesh_of ts)) in Hi. rewrite <- map_ends in Hi. apply in_map_iff in Hi as [d [E Hd]].
    exists d. split; [|assumption]. apply in_borders. apply mesh_of_border; [assumption|assumption|]. rewrite E. exact Hn.
Qed.
Print Assumptions C99_from_triangles.

(** A surface with a hole: a triangle with a triangular hole in it *)
Definition ring_tris : list tri := [(0, 1, 3); (1, 4, 3); (1, 2, 4); (2, 5, 4); (2, 0, 5); (0, 3, 5)].
Lemma ring_nodup : NoDup (tri_edges ring_tris).
Proof. cbn. repeat constructor; cbn; intuition congruence. Qed.
Example C99_example : good_mesh (mesh_of ring_tris) /\
  get_one_border_edge (mesh_of ring_tris) = Some (0, 0) /\
  border_walk (mesh_of ring_tris) (0, 0) = Ok [(0, 0); (4, 0); (2, 0)] /\
  border_walk (mesh_of ring_tris) (3, 1) = Ok [(3, 1); (5, 1); (1, 1)] /\
  map (ends (mesh_of ring_tris)) [(0, 0); (4, 0); (2, 0)] = [(0, 1); (2, 0); (1, 2)].
Proof. split; [apply mesh_of_good, ring_nodup|]. repeat split. Qed.

(** ** C72: the border stones that are written *)
(** Connected along the border: border edges that follow each other *)
Inductive along (m : TMesh) (first : pedge) : pedge -> Prop :=
| along_first : along m first first
| along_step : forall d d', along m first d -> border_edge m d' -> snd (ends m d') = fst (ends m d) -> along m first d'.
(** At most one border edge arrives at each vertex: the border does not touch itself *)
Definition simple_border (m : TMesh) : Prop :=
  forall d d', border_edge m d -> border_edge m d' -> snd (ends m d) = snd (ends m d') -> d = d'.

Lemma walk_along m first l : good_mesh m -> border_edge m first -> border_walk m first = Ok l -> Forall (along m first) l.
Proof.
  intros G H W. apply in_borders in H. destruct (border_walk_ok m G first H) as [t [W' [_ [I C]]]]. assert (l = first :: t) by congruence. subst l.
  assert (X : Forall (fun d => along m first d /\ In d (borders m)) (first :: t)).
  { apply (cycle_closed m); [assumption| |].
    - intros x Hx. injection Hx as <-. split; [constructor|assumption].
    - intros a b [Ha Ba] Eb. destruct (prev_border m G a Ba) as [y [Ey [Hy [_ S]]]]. assert (y = b) by congruence. subst y.
      split; [|assumption]. econstructor; [exact Ha|now apply in_borders|assumption]. }
  eapply Forall_impl; [|exact X]. intros d Hd. apply Hd.
Qed.
Lemma along_walk m first l d : good_mesh m -> simple_border m -> border_edge m first -> border_walk m first = Ok l -> along m first d -> In d l.
Proof.
  intros G S H W A. apply in_borders in H. destruct (border_walk_ok m G first H) as [t [W' [_ [I C]]]]. assert (l = first :: t) by congruence. subst l.
  induction A as [|d d' A IH Hd' E]; [now left|].
  destruct (cycle_next m _ d C IH) as [b [Hb Eb]]. pose proof (I d IH) as Hd. destruct (prev_border m G d Hd) as [y [Ey [Hy [_ Sy]]]].
  assert (y = b) by congruence. subst y. replace d' with b; [assumption|].
  apply S; [now apply in_borders|assumption|congruence].
Qed.

(** What is written: nothing for a surface without border, otherwise, from one border edge, a stone for
    each corner at the end of a border edge connected to it, with the vertex at its beginning; when the border
    does not touch itself, all of them, once *)
Theorem C72_written_stones : forall m is_corner offset, good_mesh m ->
  exists l, line_starts m is_corner offset = Ok l /\
    ((forall d, ~ border_edge m d) -> l = []) /\
    (forall d, border_edge m d -> exists first, get_one_border_edge m = Some first) /\
    forall first, get_one_border_edge m = Some first -> border_edge m first /\
      (forall v w, In (v, w) l -> exists d, along m first d /\ is_corner (snd (ends m d)) = true /\ (v, w) = (snd (ends m d) + offset, fst (ends m d) + offset)) /\
      (simple_border m -> NoDup l /\ forall d, along m first d -> is_corner (snd (ends m d)) = true -> In (snd (ends m d) + offset, fst (ends m d) + offset) l).
Proof.
  intros m ic o G. unfold line_starts. rewrite first_border. destruct (hd_error (borders m)) as [first|] eqn:E.
  - assert (Hf : In first (borders m)) by (destruct (borders m); [discriminate|injection E as <-; now left]).
    destruct (border_walk_ok m G first Hf) as [t [W [N [I C]]]]. rewrite W. cbn [bind].
    eexists. split; [reflexivity|]. split; [intros H; destruct (H first); now apply in_borders|].
    split; [intros d _; eauto|].
    intros f Ef. injection Ef as <-. split; [now apply in_borders|]. split.
    + intros v w Hi. apply in_flat_map in Hi as [d [Hd Hs]]. exists d. split.
      * pose proof (walk_along m first (first :: t) G ltac:(now apply in_borders) W) as A. rewrite Forall_forall in A. now apply A.
      * unfold line_start_of in Hs. destruct (ends m d) as [v0 v1]. cbn [fst snd]. destruct (ic v1) eqn:Ec; [|contradiction].
        destruct Hs as [Hs|[]]. injection Hs as <- <-. auto.
    + intros S. split.
      * assert (K : forall l, NoDup l -> incl l (borders m) -> NoDup (flat_map (line_start_of m ic o) l)).
        { induction l as [|d l IH]; intros Nl Il; [constructor|]. apply NoDup_cons_iff in Nl as [N1 N2]. cbn [flat_map].
          specialize (IH N2 (fun x Hx => Il x (or_intror Hx))). unfold line_start_of at 1. destruct (ends m d) as [v0 v1] eqn:Ed.
          destruct (ic v1); [|assumption]. cbn [app]. constructor; [|assumption].
          intros Hi. apply in_flat_map in Hi as [d' [Hd' Hs]]. unfold line_start_of in Hs. destruct (ends m d') as [w0 w1] eqn:Ed'.
          destruct (ic w1); [|contradiction]. destruct Hs as [Hs|[]]. injection Hs as Hs1 Hs2. apply N1.
          replace d with d'; [assumption|]. apply S; [apply in_borders; apply Il; now right|apply in_borders; apply Il; now left|].
          rewrite Ed, Ed'. cbn [snd]. lia. }
        now apply K.
      * intros d Hd Hc. apply in_flat_map. exists d. split; [apply (along_walk m first); auto; now apply in_borders|].
        unfold line_start_of. destruct (ends m d) as [v0 v1]. cbn [fst snd] in *. rewrite Hc. now left.
  - exists []. split; [reflexivity|]. split; [reflexivity|]. split; [|discriminate].
    intros d Hd. apply in_borders in Hd. destruct (borders m); [contradiction|discriminate].
Qed.
Print Assumptions C72_written_stones.
Lemma ring_border d : border_edge (mesh_of ring_tris) d <-> In d [(0, 0); (1, 1); (2, 0); (3, 1); (4, 0); (5, 1)].
Proof. unfold border_edge. rewrite <- in_borders. reflexivity. Qed.
Example C72_ring : good_mesh (mesh_of ring_tris) /\ simple_border (mesh_of ring_tris) /\
  line_starts (mesh_of ring_tris) (fun v => (v =? 0) || (v =? 3)) 1 = Ok [(1, 3)] /\
  border_edge (mesh_of ring_tris) (1, 1) /\ ends (mesh_of ring_tris) (1, 1) = (4, 3).
Proof.
  split; [apply mesh_of_good, ring_nodup|]. split.
  - intros d d' H H'. apply ring_border in H, H'. cbn [In] in H, H'. intuition (subst; try reflexivity; discriminate).
  - split; [reflexivity|]. split; [apply ring_border; cbn; tauto|reflexivity].
Qed.

(** The model of the whole writer (MlModel.v), which takes the loops as data, writes the same *)
Theorem C72_same_as_given_loops : forall (F : Num) (s : MSurf F) m ls offset, good_mesh m ->
  tm_tris m = s_tris s -> border_loops m = Ok ls -> s_loops s = map (map (ends m)) ls ->
  line_starts m (fun v => existsb (Z.eqb v) (s_corners s)) offset = Ok (line_starts_of s offset).
Proof.
  intros F s m ls o G Ht L El. destruct (border_loops_ok m G) as [ls' [L' [P [Fa Hh]]]]. assert (ls' = ls) by congruence. subst ls'.
  unfold line_starts, line_starts_of. rewrite first_border, Hh, El. destruct ls as [|l r]; [reflexivity|]. cbn [map].
  inversion Fa as [|? ? [_ [b [Hb Wb]]] _]; subst. rewrite Hb, Wb. cbn [bind]. f_equal. clear.
  induction l as [|d l IH]; [reflexivity|]. cbn [flat_map map filter]. unfold line_start_of at 1. destruct (ends m d) as [v0 v1].
  cbn [fst snd]. destruct (existsb (Z.eqb v1) (s_corners s)); cbn [map app]; rewrite IH; reflexivity.
Qed.
Print Assumptions C72_same_as_given_loops.

(** ** C75: the lines of a loaded .ml surface, from its triangles *)
Section MlMesh.
Variables (P : Type) (pts : list P) (ts : list tri).
Notation m := (mesh_of ts).
(** SurfaceMesh::polygon_edge_from_vertices and find_edge (ml_input.cpp 60-78) *)
Definition edge_between (v0 v1 : Z) : option pedge := find (fun d => edge_eqb (v0, v1) (ends m d)) (all_edges m).
Definition mesh_find_edge (v0 v1 : Z) : res (pedge * bool) :=
  match edge_between v0 v1 with
  | Some d => Ok (d, true)
  | None => match edge_between v1 v0 with Some d => Ok (d, false) | None => Throw ExData end
  end.
(** The loops of compute_line (ml_input.cpp 636-668) on the mesh itself *)
Fixpoint mesh_walk (uv : uvs) (back : bool) (fuel : nat) (d : pedge) : res (list Z) :=
  do u <- idxz uv (walk_vertex back (ends m d));
  match u with
  | Some _ => Ok [walk_vertex back (ends m d)]
  | None =>
      match fuel with
      | O => Hang
      | S f =>
          do d' <- (if back then Border.previous_on_border m d else Border.next_on_border m d);
          do r <- mesh_walk uv back f d';
          Ok (walk_vertex back (ends m d) :: r)
      end
  end.
(** compute_line (ml_input.cpp 610-680) on the mesh itself *)
Definition mesh_compute_line (uv : uvs) (corner next : Z) : res (LineData P) :=
  do u <- idxz uv corner;
  match u with
  | None => UB
  | Some c0 =>
      do '(d, back) <- mesh_find_edge next corner;
      do r <- mesh_walk uv back (List.length (borders m)) d;
      let indices := corner :: r in
      do ps <- mapM (idxz pts) indices;
      do u1 <- idxz uv (last indices corner);
      match u1 with
      | None => UB
      | Some c1 => Ok (mkLineData P c0 c1 ps indices)
      end
  end.

Hypothesis N : NoDup (tri_edges ts).
Variable ls : list (list pedge).
Hypothesis L : border_loops m = Ok ls.
Definition lsurf_of : LSurf P := mkLSurf P pts (tri_edges ts) (vertex_loops m ls).

Lemma follow_loops_out K e : ~ In e (List.concat K) -> follow_loops K e = UB.
Proof.
  induction K as [|l K IH]; intros H; [reflexivity|]. cbn [follow_loops]. cbn [List.concat] in H. rewrite in_app_iff in H.
  assert (X : follow_loop l e = None) by (destruct l; [reflexivity|]; unfold follow_loop; apply follow_none; tauto).
  rewrite X. apply IH. tauto.
Qed.
Lemma not_border_ends d : In d (all_edges m) -> ~ In d (borders m) -> ~ In (ends m d) (List.concat (vertex_loops m ls)).
Proof.
  intros Hd Hn Hi. apply (vertex_loops_in m (mesh_of_good ts N) ls L) in Hi as [d' [Hd' E]].
  assert (d' = d); [|subst; contradiction]. apply (nodup_map_inj (ends m) (all_edges m)); auto; [now rewrite map_ends|].
  now apply in_borders in Hd'.
Qed.
Lemma step_agrees (back : bool) d : In d (all_edges m) ->
  match (if back then Border.previous_on_border m d else Border.next_on_border m d) with
  | Ok b => In b (all_edges m) /\ walk_step P lsurf_of back (ends m d) = Ok (ends m b)
  | UB => walk_step P lsurf_of back (ends m d) = UB
  | _ => False
  end.
Proof.
  intros Hd. pose proof (mesh_of_good ts N) as G. destruct (in_dec pedge_dec d (borders m)) as [Hb|Hb].
  - destruct back; cbn [walk_step].
    + destruct (previous_agrees m G (mesh_of_distinct ts N) ls L d Hb) as [b [E1 E2]]. rewrite E1. split; [|exact E2].
      destruct (prev_border m G d Hb) as [y [Ey [Hy _]]]. assert (y = b) by congruence. subst. now apply in_borders in Hy.
    + destruct (next_agrees m G (mesh_of_distinct ts N) ls L d Hb) as [b [E1 E2]]. rewrite E1. split; [|exact E2].
      apply in_borders in Hb. destruct (C99_next_previous m d G Hb) as [_ [z [Ez [[Hz _] _]]]]. congruence.
  - assert (On : on_border m d = false).
    { unfold on_border. destruct (tm_adj m d) eqn:Ea; [reflexivity|]. destruct Hb. apply in_borders. auto. }
    pose proof (not_border_ends d Hd Hb) as Nb. destruct back; cbn [walk_step].
    + unfold Border.previous_on_border. rewrite On. apply follow_loops_out. exact Nb.
    + unfold Border.next_on_border. rewrite On. apply follow_loops_out. cbn [lsurf_of ls_loops].
      intros Hi. apply Nb. eapply Permutation_in; [apply concat_rev_perm|exact Hi].
Qed.
Lemma walk_agrees uv back fuel : forall d, In d (all_edges m) -> mesh_walk uv back fuel d = walk P lsurf_of uv back fuel (ends m d).
Proof.
  induction fuel as [|f IH]; intros d Hd; cbn [mesh_walk walk]; destruct (idxz uv (walk_vertex back (ends m d))) as [[u|]| | |]; cbn [bind]; try reflexivity.
  pose proof (step_agrees back d Hd) as S.
  destruct (if back then Border.previous_on_border m d else Border.next_on_border m d) as [b|e| |].
  - destruct S as [Hb ->]. cbn [bind]. now rewrite IH.
  - contradiction.
  - rewrite S. reflexivity.
  - contradiction.
Qed.
Lemma edge_between_ok v0 v1 : match edge_between v0 v1 with
  | Some d => In d (all_edges m) /\ ends m d = (v0, v1) /\ existsb (edge_eqb (v0, v1)) (tri_edges ts) = true
  | None => existsb (edge_eqb (v0, v1)) (tri_edges ts) = false
  end.
Proof.
  unfold edge_between. destruct (find _ (all_edges m)) as [d|] eqn:E.
  - apply find_some in E as [Hd Ed]. apply edge_eqb_eq in Ed. split; [assumption|]. split; [congruence|].
    apply existsb_exists. exists (v0, v1). split; [|apply edge_eqb_refl]. change ts with (tm_tris m). rewrite <- map_ends, Ed. now apply in_map.
  - apply not_true_iff_false. intros H. apply existsb_exists in H as [x [Hx Ex]]. change ts with (tm_tris m) in Hx. rewrite <- map_ends in Hx.
    apply in_map_iff in Hx as [d [Ed Hd]]. apply (find_none _ _ E) in Hd. rewrite <- Ed in Ex. congruence.
Qed.
Lemma loops_length : List.length (List.concat (vertex_loops m ls)) = List.length (borders m).
Proof.
  unfold vertex_loops. rewrite concat_map_map, map_length. destruct (ls_facts m (mesh_of_good ts N) ls L) as [Pm _].
  now apply Permutation_length.
Qed.
Lemma compute_line_agrees uv corner next : mesh_compute_line uv corner next = compute_line P lsurf_of uv corner next.
Proof.
  unfold mesh_compute_line, compute_line. destruct (idxz uv corner) as [[c0|]| | |]; cbn [bind]; try reflexivity.
  unfold mesh_find_edge, find_edge. cbn [lsurf_of ls_edges ls_points ls_loops]. rewrite loops_length.
  pose proof (edge_between_ok next corner) as E1. destruct (edge_between next corner) as [d|].
  - destruct E1 as [Hd [Ed ->]]. cbn [bind]. rewrite (walk_agrees uv true _ d Hd), Ed. reflexivity.
  - rewrite E1. pose proof (edge_between_ok corner next) as E2. destruct (edge_between corner next) as [d|].
    + destruct E2 as [Hd [Ed ->]]. cbn [bind]. rewrite (walk_agrees uv false _ d Hd), Ed. reflexivity.
    + now rewrite E2.
Qed.

(** The vertices of the loops *)
Definition loop_vertices : list (list Z) := map (map (fun d => snd (ends m d))) ls.
Lemma border_of_loop l : In l ls -> border_of (map (fun d => snd (ends m d)) l) = map (ends m) l.
Proof.
  intros Hl. destruct (cycle_joined m (mesh_of_good ts N) ls L l Hl) as [x [t [-> C]]].
  cbn [map border_of]. 
  assert (K : forall t0 p y, x :: t ++ [x] = p ++ y :: t0 ++ [x] ->
    MlLinesFacts.path (snd (ends m y) :: map (fun d => snd (ends m d)) t0) (snd (ends m x)) = map (ends m) (y :: t0)).
  { induction t0 as [|z t0 IH]; intros p y E.
    - pose proof (C p y x [] E) as J. cbn. rewrite J. destruct (ends m y). reflexivity.
    - cbn [app] in E. pose proof (C p y z (t0 ++ [x]) E) as J.
      change (MlLinesFacts.path (snd (ends m y) :: map (fun d => snd (ends m d)) (z :: t0)) (snd (ends m x)))
        with ((snd (ends m z), snd (ends m y)) :: MlLinesFacts.path (snd (ends m z) :: map (fun d => snd (ends m d)) t0) (snd (ends m x))).
      rewrite (IH (p ++ [y]) z) by (rewrite <- app_assoc; exact E). cbn [map]. rewrite J. destruct (ends m y). reflexivity. }
  exact (K t [] x eq_refl).
Qed.
Lemma border_of_loops : map border_of loop_vertices = vertex_loops m ls.
Proof.
  unfold loop_vertices, vertex_loops. rewrite map_map. apply map_ext_in. intros l Hl. now apply border_of_loop.
Qed.
Hypothesis R : forall a b, In (a, b) (tri_edges ts) -> 0 <= a < lenz pts /\ 0 <= b < lenz pts.
Lemma lsurf_bordered : bordered P lsurf_of loop_vertices.
Proof.
  pose proof (mesh_of_good ts N) as G. constructor; rewrite ?border_of_loops; cbn [lsurf_of ls_loops ls_edges ls_points].
  - reflexivity.
  - apply (vertex_loops_nodup m G (mesh_of_distinct ts N) ls L).
  - intros a b Hi. apply (vertex_loops_in m G ls L) in Hi as [d [Hd E]]. apply in_borders in Hd.
    apply (C99_from_triangles ts N). exists d. auto.
  - intros vs v Hvs Hv. unfold loop_vertices in Hvs. apply in_map_iff in Hvs as [l [<- Hl]]. apply in_map_iff in Hv as [d [<- Hd]].
    destruct (ls_facts m G ls L) as [Pm _]. assert (Hb : In d (borders m)) by (apply (Permutation_in _ Pm); apply in_concat; eauto).
    apply in_borders in Hb as [Hb _]. destruct (ends m d) as [a b] eqn:E. cbn [snd]. apply (R a b).
    change ts with (tm_tris m). rewrite <- map_ends, <- E. now apply in_map.
Qed.
End MlMesh.

(** For every surface whose triangles have no directed edge in common: the lines computed on the mesh from the stones of a border
    loop having a corner cut this loop at its corners. The loops are those of the border edges. *)
Theorem C75_from_triangles : forall (P : Type) (pts : list P) (ts : list tri) (uv : uvs),
  NoDup (tri_edges ts) -> (forall a b, In (a, b) (tri_edges ts) -> 0 <= a < lenz pts /\ 0 <= b < lenz pts) ->
  List.length uv = List.length pts ->
  exists vss : list (list Z),
    (forall a b, In (a, b) (List.concat (map border_of vss)) <-> In (a, b) (tri_edges ts) /\ ~ In (b, a) (tri_edges ts)) /\
    NoDup (List.concat (map border_of vss)) /\
    forall back vs, In vs vss -> (exists v, In v vs /\ PropsMlLines.is_corner uv v = true) ->
    exists ds, mapM (fun st => mesh_compute_line P pts ts uv (fst st) (snd st)) (loop_starts uv back vs) = Ok ds /\
      Permutation (flat_map (fun d => edges_along back (d_indices P d)) ds) (border_of vs) /\
      Forall (fun d => exists a inner b, d_indices P d = a :: inner ++ [b] /\
        nthz uv a = Some (Some (d_c0 P d)) /\ nthz uv b = Some (Some (d_c1 P d)) /\
        Forall (fun v => nthz uv v = Some None) inner /\
        Forall2 (fun v p => nthz pts v = Some p) (d_indices P d) (d_points P d)) ds.
Proof.
  intros P pts ts uv N R Hu. pose proof (mesh_of_good ts N) as G.
  destruct (border_loops_ok (mesh_of ts) G) as [ls [L _]].
  exists (loop_vertices ts ls). rewrite (border_of_loops ts N ls L).
  split; [|split].
  - intros a b. rewrite (vertex_loops_in _ G ls L). rewrite <- (proj2 (C99_from_triangles ts N)).
    split; intros [d [Hd E]]; exists d; (split; [now apply in_borders|assumption]).
  - apply (vertex_loops_nodup _ G (mesh_of_distinct ts N) ls L).
  - intros back vs Hvs Hc.
    destruct (C75_lines_cut_the_loop P (lsurf_of P pts ts ls) (loop_vertices ts ls) uv back vs) as [ds [E [PM F]]]; auto.
    { now apply lsurf_bordered. }
    exists ds. split; [|split; [assumption|exact F]].
    rewrite <- E. clear -N L. induction (loop_starts uv back vs) as [|st l IH]; [reflexivity|]. cbn [mapM].
    rewrite IH, (compute_line_agrees P pts ts N ls L). reflexivity.
Qed.
Print Assumptions C75_from_triangles.
Example C75_triangles_example :
  let uv := [Some 0; Some 1; None; None] in
  let ts := [(0, 1, 2); (0, 2, 3)] in
  NoDup (tri_edges ts) /\
  mapM (fun st => mesh_compute_line Z [10; 11; 12; 13] ts uv (fst st) (snd st)) [(0, 3); (1, 0)]
    = Ok [mkLineData Z 0 1 [10; 13; 12; 11] [0; 3; 2; 1]; mkLineData Z 1 0 [11; 10] [1; 0]].
Proof. cbn zeta. split; [cbn; repeat constructor; cbn; intuition congruence|reflexivity]. Qed.

(** ** C93: the lines of a loaded .lso model, from the triangles of its surfaces *)
Section LsoMesh.
Variables (P : Type) (pts : list P) (uv : list Z) (ts : list tri).
Notation m := (mesh_of ts).
(** build_line (lso_input.cpp 645-674) on the mesh itself *)
Fixpoint mesh_line_walk (cs : corners P) (fuel : nat) (d : pedge) : res (lline P) :=
  match fuel with
  | O => Hang
  | S f =>
      do d' <- Border.next_on_border m d;
      do u <- idxz uv (fst (ends m d'));
      do p <- idxz pts (fst (ends m d'));
      if has_corner P cs u then Ok [(u, p)]
      else do r <- mesh_line_walk cs f d'; Ok ((u, p) :: r)
  end.
Definition mesh_build_line (cs : corners P) (d : pedge) : res (lline P) :=
  do u <- idxz uv (fst (ends m d));
  do p <- idxz pts (fst (ends m d));
  do r <- mesh_line_walk cs (List.length (borders m)) d;
  Ok ((u, p) :: r).

Hypothesis N : NoDup (tri_edges ts).
Variable ls : list (list pedge).
Hypothesis L : border_loops m = Ok ls.
(** The surface as LsoLines.v takes it: its border edges in the order of the polygons *)
Definition bsurf_of : BSurf P :=
  mkBSurf P pts uv (map (ends m) (borders m)) (map (@rev edge) (vertex_loops m ls)) (tri_edges ts).

Lemma line_walk_agrees cs fuel : forall d, In d (borders m) -> mesh_line_walk cs fuel d = line_walk P cs bsurf_of fuel (ends m d).
Proof.
  pose proof (mesh_of_good ts N) as G.
  induction fuel as [|f IH]; intros d Hd; [reflexivity|]. cbn [mesh_line_walk line_walk].
  destruct (next_agrees m G (mesh_of_distinct ts N) ls L d Hd) as [b [E1 E2]]. rewrite E1. unfold next_border. cbn [bsurf_of bs_loops]. rewrite E2. cbn [bind].
  assert (Hb : In b (borders m)).
  { apply in_borders in Hd. destruct (C99_next_previous m d G Hd) as [_ [z [Ez [Hz _]]]]. apply in_borders. assert (z = b) by congruence. subst z. exact Hz. }
  cbn [bsurf_of bs_uv bs_points]. destruct (idxz uv (fst (ends m b))) as [u| | |]; cbn [bind]; try reflexivity.
  destruct (idxz pts (fst (ends m b))) as [p| | |]; cbn [bind]; try reflexivity. now rewrite IH.
Qed.
Lemma build_line_agrees cs d : In d (borders m) -> mesh_build_line cs d = build_line P cs bsurf_of (ends m d).
Proof.
  intros Hd. unfold mesh_build_line, build_line. cbn [bsurf_of bs_uv bs_points bs_loops].
  rewrite (line_walk_agrees cs _ d Hd). replace (List.length (List.concat (map (@rev edge) (vertex_loops m ls)))) with (List.length (borders m)); [reflexivity|].
  rewrite (Permutation_length (concat_rev_perm _)). symmetry. apply (loops_length ts N ls L).
Qed.
Lemma chain_loop l : In l ls -> exists v, chain v (rev (map (ends m) l)) v.
Proof.
  intros Hl. destruct (cycle_joined m (mesh_of_good ts N) ls L l Hl) as [x [t [-> C]]].
  exists (snd (ends m x)).
  assert (K : forall t0 p y, x :: t ++ [x] = p ++ y :: t0 ++ [x] -> chain (snd (ends m x)) (rev (map (ends m) (y :: t0))) (snd (ends m y))).
  { induction t0 as [|z t0 IH]; intros p y E.
    - pose proof (C p y x [] E) as J. cbn. auto.
    - cbn [app] in E. pose proof (C p y z (t0 ++ [x]) E) as J. cbn [map rev]. rewrite chain_app. exists (snd (ends m z)). split.
      + apply (IH (p ++ [y]) z). rewrite <- app_assoc. exact E.
      + cbn [chain]. auto. }
  exact (K t [] x eq_refl).
Qed.
Hypothesis U : List.length pts = List.length uv.
Hypothesis R : forall a b, In (a, b) (tri_edges ts) -> 0 <= a < lenz pts /\ 0 <= b < lenz pts.
Lemma bsurf_bordered : well_bordered P bsurf_of.
Proof.
  pose proof (mesh_of_good ts N) as G.
  assert (X : forall e, In e (List.concat (map (@rev edge) (vertex_loops m ls))) <-> exists d, In d (borders m) /\ ends m d = e).
  { intros e. rewrite <- (vertex_loops_in m G ls L). split; apply Permutation_in; [|symmetry]; apply concat_rev_perm. }
  constructor; cbn [bsurf_of bs_points bs_uv bs_border bs_loops].
  - assumption.
  - intros e. rewrite X, in_map_iff. split; intros [d [H1 H2]]; exists d; auto.
  - apply (Permutation_NoDup (Permutation_sym (concat_rev_perm _))). apply (vertex_loops_nodup m G (mesh_of_distinct ts N) ls L).
  - intros l Hl. apply in_map_iff in Hl as [k [<- Hk]]. unfold vertex_loops in Hk. apply in_map_iff in Hk as [q [<- Hq]]. now apply chain_loop.
  - intros e He. apply X in He as [d [Hd <-]]. apply in_borders in Hd as [Hd _]. destruct (ends m d) as [a b] eqn:E. cbn [fst snd].
    assert (Hi : In (a, b) (tri_edges ts)) by (change ts with (tm_tris m); rewrite <- map_ends, <- E; now apply in_map).
    apply R in Hi. unfold lenz in *. lia.
Qed.
End LsoMesh.

(** Every surface whose triangles have no directed edge in common and whose vertices have a unique vertex is as C92 to C95 suppose, and
    their lines are those built on the mesh *)
Theorem C93_from_triangles : forall (P : Type) (pts : list P) (uv : list Z) (ts : list tri),
  NoDup (tri_edges ts) -> List.length pts = List.length uv ->
  (forall a b, In (a, b) (tri_edges ts) -> 0 <= a < lenz pts /\ 0 <= b < lenz pts) ->
  exists s : BSurf P, well_bordered P s /\ bs_points P s = pts /\ bs_uv P s = uv /\ bs_edges P s = tri_edges ts /\
    (forall a b, In (a, b) (bs_border P s) <-> In (a, b) (tri_edges ts) /\ ~ In (b, a) (tri_edges ts)) /\
    forall cs d, border_edge (mesh_of ts) d -> mesh_build_line P pts uv ts cs d = build_line P cs s (ends (mesh_of ts) d).
Proof.
  intros P pts uv ts N U R. pose proof (mesh_of_good ts N) as G. destruct (border_loops_ok (mesh_of ts) G) as [ls [L _]].
  exists (bsurf_of P pts uv ts ls). split; [now apply bsurf_bordered|]. repeat (split; [reflexivity|]). split.
  - intros a b. cbn [bsurf_of bs_border]. rewrite in_map_iff, <- (proj2 (C99_from_triangles ts N)).
    split; intros [d [H1 H2]]; exists d; [split; [now apply in_borders|assumption]|split; [assumption|now apply in_borders]].
  - intros cs d Hd. apply (build_line_agrees P pts uv ts N ls L). now apply in_borders.
Qed.
Print Assumptions C93_from_triangles.
Example C93_triangles_example :
  let ts := [(0, 1, 2); (0, 2, 3)] in
  NoDup (tri_edges ts) /\ border_edge (mesh_of ts) (0, 0) /\
  mesh_build_line Z [10; 11; 12; 13] [5; 6; 7; 8] ts [(5, 10); (7, 12)] (0, 0) = Ok [(5, 10); (6, 11); (7, 12)].
Proof. cbn zeta. split; [cbn; repeat constructor; cbn; intuition congruence|]. split; [split; [cbn; tauto|reflexivity]|reflexivity]. Qed.
