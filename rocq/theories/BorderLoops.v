(** * The border loops of a mesh

    The borders of a mesh cut into loops, as the models MlModel.v, MlLines.v and LsoLines.v take them
    as data, and the adjacencies computed from the triangles alone. *)
From Coq Require Import List ZArith Lia Bool Permutation.
From Verif Require Import Base GocadModel MeshModel TsModel MlLines MlLinesFacts Border BorderFacts.
Import ListNotations.
Local Open Scope list_scope.
Local Open Scope Z_scope.

Section Loops.
Variable m : TMesh.
Hypothesis G : good_mesh m.
Notation prev := (Border.previous_on_border m).
Notation next := (Border.next_on_border m).

Lemma cycle_split l a : cycle m l -> In a l -> exists x t p q, l = x :: t /\ l = p ++ a :: q /\ prev a = Ok (hd x q).
Proof.
  intros [x [t [-> C]]] H. apply in_split in H as [p [q E]]. exists x, t, p, q. split; [reflexivity|]. split; [assumption|].
  destruct q as [|b q]; cbn [hd].
  - apply (C p a x []). change (x :: t ++ [x]) with ((x :: t) ++ [x]). rewrite E, <- app_assoc. reflexivity.
  - apply (C p a b (q ++ [x])). change (x :: t ++ [x]) with ((x :: t) ++ [x]). rewrite E, <- app_assoc. reflexivity.
Qed.
Lemma cycle_next l a : cycle m l -> In a l -> exists b, In b l /\ prev a = Ok b.
Proof.
  intros C H. destruct (cycle_split l a C H) as [x [t [p [q [E1 [E2 E3]]]]]]. exists (hd x q). split; [|assumption].
  destruct q as [|b q]; cbn [hd]; [rewrite E1; now left|rewrite E2; apply in_or_app; right; right; now left].
Qed.
Lemma cycle_pred l b : cycle m l -> In b l -> exists a, In a l /\ prev a = Ok b.
Proof.
  intros [x [t [-> C]]] H. apply in_split in H as [p [q E]]. destruct p as [|a p] using rev_ind.
  - cbn [app] in E. injection E as <- <-. destruct t as [|z t'] using rev_ind.
    + exists x. split; [now left|]. apply (C [] x x []). reflexivity.
    + clear IHt'. exists z. split; [right; apply in_or_app; right; now left|]. apply (C (x :: t') z x []). cbn [app]. now rewrite <- app_assoc.
  - clear IHp. rewrite <- app_assoc in E. cbn [app] in E. exists a. split; [rewrite E; apply in_or_app; right; now left|].
    apply (C p a b (q ++ [x])). change (x :: t ++ [x]) with ((x :: t) ++ [x]). rewrite E, <- app_assoc. reflexivity.
Qed.
Lemma cycle_closed l (S : pedge -> Prop) : cycle m l -> (forall x, hd_error l = Some x -> S x) ->
  (forall a b, S a -> prev a = Ok b -> S b) -> Forall S l.
Proof.
  intros [x [t [-> C]]] H0 HS. assert (Hx : S x) by (apply H0; reflexivity).
  assert (K : forall t0 p y, x :: t ++ [x] = p ++ y :: t0 -> S y -> Forall S t0).
  { induction t0 as [|z t0 IH]; intros p y E Hy; [constructor|].
    assert (Hz : S z) by (eapply HS; [exact Hy|eapply C; exact E]). constructor; [assumption|].
    apply (IH (p ++ [y]) z); [now rewrite <- app_assoc|assumption]. }
  constructor; [assumption|]. specialize (K (t ++ [x]) [] x eq_refl Hx). now apply Forall_app in K.
Qed.

(** The loops, each walked from its first edge in the order of the triangles.  This function is
    not in the code; it gives the loops of the whole surface. *)
Definition not_in (l : list pedge) (d : pedge) : bool := negb (existsb (pedge_eqb d) l).
Lemma not_in_ok l d : not_in l d = true <-> ~ In d l.
Proof.
  unfold not_in. rewrite negb_true_iff, <- not_true_iff_false, existsb_exists. split.
  - intros H Hi. apply H. exists d. split; [assumption|now apply pedge_eqb_ok].
  - intros H [x [Hx E]]. apply pedge_eqb_ok in E. subst. contradiction.
Qed.
Fixpoint loops_from (fuel : nat) (rem : list pedge) : res (list (list pedge)) :=
  match rem with
  | [] => Ok []
  | b :: _ =>
    match fuel with
    | O => Hang
    | S f =>
      do l <- border_walk m b;
      do r <- loops_from f (filter (not_in l) rem);
      Ok (l :: r)
    end
  end.
Definition border_loops : res (list (list pedge)) := loops_from (List.length (borders m)) (borders m).

Lemma NoDup_app_both {A} (a b : list A) : NoDup a -> NoDup b -> (forall x, In x a -> ~ In x b) -> NoDup (a ++ b).
Proof.
  induction a as [|x a IH]; intros Na Nb H; [assumption|]. apply NoDup_cons_iff in Na as [N1 N2]. cbn [app]. constructor.
  - rewrite in_app_iff. intros [Hi|Hi]; [contradiction|]. apply (H x); [now left|assumption].
  - apply IH; auto. intros y Hy. apply H. now right.
Qed.
Lemma loops_from_ok n : forall rem, (List.length rem <= n)%nat -> NoDup rem -> incl rem (borders m) ->
  (forall a b, In a rem -> prev a = Ok b -> In b rem) ->
  exists ls, loops_from n rem = Ok ls /\ Permutation (concat ls) rem /\
    Forall (fun l => cycle m l /\ exists b, hd_error l = Some b /\ border_walk m b = Ok l) ls /\
    hd_error rem = match ls with l :: _ => hd_error l | [] => None end.
Proof.
  induction n as [|n IH]; intros rem Ln ND I Cl.
  - destruct rem; [|cbn in Ln; lia]. exists []. cbn [loops_from concat]. repeat split; auto.
  - destruct rem as [|b r]; [exists []; cbn [loops_from concat]; repeat split; auto|].
    destruct (border_walk_ok m G b (I b (or_introl eq_refl))) as [l [W [NDl [Il Cy]]]].
    assert (Fl : Forall (fun a => In a (b :: r)) (b :: l)).
    { apply cycle_closed; [assumption| |exact Cl]. intros x Hx. injection Hx as <-. now left. }
    rewrite Forall_forall in Fl.
    assert (P0 : Permutation (b :: r) ((b :: l) ++ filter (not_in (b :: l)) (b :: r))).
    { apply NoDup_Permutation; [assumption| |].
      - apply NoDup_app_both; [assumption|now apply NoDup_filter|]. intros x Hx Hf. apply filter_In in Hf as [_ Hf]. now apply not_in_ok in Hf.
      - intros x. rewrite in_app_iff, filter_In, not_in_ok. destruct (in_dec pedge_dec x (b :: l)) as [Hi|Hi]; [|tauto].
        split; [now left|]. intros _. now apply Fl. }
    destruct (IH (filter (not_in (b :: l)) (b :: r))) as [ls [E [Pm [Fa Hh]]]].
    + apply Permutation_length in P0. rewrite app_length in P0. cbn [List.length] in *. lia.
    + now apply NoDup_filter.
    + intros x Hx. apply filter_In in Hx as [Hx _]. now apply I.
    + intros x y Hx Hy. apply filter_In in Hx as [Hx Nx]. apply filter_In. split; [eapply Cl; eauto|].
      apply not_in_ok in Nx. apply not_in_ok. intros Hyl. destruct (cycle_pred _ _ Cy Hyl) as [a [Ha Ea]].
      assert (x = a) by (eapply (prev_inj m G); eauto). subst. contradiction.
    + exists ((b :: l) :: ls). split; [|split; [|split]].
      * cbn [loops_from]. rewrite W. cbn [bind]. rewrite E. reflexivity.
      * cbn [concat]. rewrite Pm. now symmetry.
      * constructor; [|assumption]. split; [assumption|]. exists b. auto.
      * reflexivity.
Qed.
Lemma border_loops_ok : exists ls, border_loops = Ok ls /\ Permutation (concat ls) (borders m) /\
  Forall (fun l => cycle m l /\ exists b, hd_error l = Some b /\ border_walk m b = Ok l) ls /\
  hd_error (borders m) = match ls with l :: _ => hd_error l | [] => None end.
Proof.
  apply loops_from_ok; [lia| | |].
  - apply NoDup_filter, all_edges_nodup.
  - apply incl_refl.
  - intros a b Ha Hb. destruct (prev_border m G a Ha) as [y [Ey [Hy _]]]. congruence.
Qed.
Lemma first_border : get_one_border_edge m = hd_error (borders m).
Proof.
  unfold get_one_border_edge, borders. induction (all_edges m) as [|d l IH]; [reflexivity|].
  cbn [find filter]. destruct (on_border m d); [reflexivity|assumption].
Qed.
End Loops.

(** ** The same loops seen as edges between vertices *)
Section Vertices.
Variable m : TMesh.
Hypothesis G : good_mesh m.
(** No two border edges have the same vertices in the same order *)
Hypothesis D : forall d d', In d (borders m) -> In d' (borders m) -> ends m d = ends m d' -> d = d'.
Variable ls : list (list pedge).
Hypothesis L : border_loops m = Ok ls.

Definition vertex_loops : list (list edge) := map (map (ends m)) ls.

Lemma ls_facts : Permutation (concat ls) (borders m) /\ Forall (cycle m) ls.
Proof.
  destruct (border_loops_ok m G) as [ls' [E [P [F _]]]]. rewrite L in E. injection E as <-. split; [assumption|].
  eapply Forall_impl; [|exact F]. intros l H. apply H.
Qed.
Lemma nodup_map_in {A B} (f : A -> B) l : NoDup l -> (forall x y, In x l -> In y l -> f x = f y -> x = y) -> NoDup (map f l).
Proof.
  induction l as [|a l IH]; intros N H; [constructor|]. apply NoDup_cons_iff in N as [N1 N2]. cbn [map]. constructor.
  - intros Hi. apply in_map_iff in Hi as [b [E Hb]]. apply N1. rewrite (H a b); auto; [now left|now right].
  - apply IH; [assumption|]. intros x y Hx Hy. apply H; now right.
Qed.
Lemma concat_map_map {A B} (f : A -> B) (L0 : list (list A)) : concat (map (map f) L0) = map f (concat L0).
Proof. symmetry. apply concat_map. Qed.
Lemma vertex_loops_nodup : NoDup (concat vertex_loops).
Proof.
  unfold vertex_loops. rewrite concat_map_map. destruct ls_facts as [P _].
  apply nodup_map_in.
  - apply (Permutation_NoDup (Permutation_sym P)). apply NoDup_filter, all_edges_nodup.
  - intros x y Hx Hy. apply D; now apply (Permutation_in _ P).
Qed.
Lemma vertex_loops_in e : In e (concat vertex_loops) <-> exists d, In d (borders m) /\ ends m d = e.
Proof.
  unfold vertex_loops. rewrite concat_map_map, in_map_iff. destruct ls_facts as [P _]. split.
  - intros [d [E H]]. exists d. split; [now apply (Permutation_in _ P)|assumption].
  - intros [d [H E]]. exists d. split; [assumption|]. now apply (Permutation_in _ (Permutation_sym P)).
Qed.
Lemma loop_of d : In d (borders m) -> exists l, In l ls /\ In d l.
Proof.
  intros H. destruct ls_facts as [P _]. apply (Permutation_in _ (Permutation_sym P)) in H. apply in_concat in H as [l [Hl Hd]]. eauto.
Qed.
Lemma loop_nodup l : In l ls -> NoDup (map (ends m) l).
Proof.
  intros H. pose proof vertex_loops_nodup as N. unfold vertex_loops in N. apply (in_map (map (ends m))) in H.
  apply in_split in H as [A [B E]]. rewrite E, concat_app in N. apply NoDup_app_r in N. cbn [concat] in N. now apply NoDup_app_l in N.
Qed.
Lemma follow_cycle l d : In l ls -> In d l -> exists b, Border.previous_on_border m d = Ok b /\
  follow_loop (map (ends m) l) (ends m d) = Some (ends m b) /\
  follow_loop (rev (map (ends m) l)) (ends m b) = Some (ends m d).
Proof.
  intros Hl Hd. pose proof (loop_nodup l Hl) as N. destruct ls_facts as [_ F]. rewrite Forall_forall in F.
  destruct (cycle_split m l d (F l Hl) Hd) as [x [t [p [q [E1 [E2 E3]]]]]]. exists (hd x q). split; [assumption|].
  assert (N' : NoDup (rev (map (ends m) l))) by (apply (Permutation_NoDup (Permutation_rev _)); assumption).
  assert (Fl : forall e, follow_loop (map (ends m) l) e = follow (ends m x) (map (ends m) l) e) by (intros e; rewrite E1; reflexivity).
  destruct q as [|b q]; cbn [hd].
  - rewrite Fl. rewrite E2 in *. rewrite map_app in *. cbn [map] in *. split; [now apply follow_last|].
    rewrite rev_app_distr in *. cbn [rev app] in *. unfold follow_loop.
    destruct p as [|y p]; cbn [app map rev] in *.
    + injection E1 as -> <-. cbn [follow]. now rewrite edge_eqb_refl.
    + injection E1 as <- <-. rewrite app_comm_cons in *. now apply follow_last.
  - rewrite Fl. rewrite E2 in *. rewrite map_app in *. cbn [map] in *. split; [now apply follow_mid|].
    rewrite rev_app_distr in *. cbn [rev] in *. rewrite <- !app_assoc in *. cbn [app] in *.
    assert (K : forall f, follow f (rev (map (ends m) q) ++ ends m b :: ends m d :: rev (map (ends m) p)) (ends m b) = Some (ends m d))
      by (intros f; now apply follow_mid).
    unfold follow_loop. destruct (rev (map (ends m) q) ++ ends m b :: ends m d :: rev (map (ends m) p)) eqn:Z; [destruct (rev (map (ends m) q)); discriminate|].
    apply K.
Qed.
(** previous_on_border and next_on_border of the models that take the loops as data *)
Lemma previous_agrees d : In d (borders m) -> exists b, Border.previous_on_border m d = Ok b /\ follow_loops vertex_loops (ends m d) = Ok (ends m b).
Proof.
  intros H. destruct (loop_of d H) as [l [Hl Hd]]. destruct (follow_cycle l d Hl Hd) as [b [E1 [E2 _]]]. exists b. split; [assumption|].
  eapply follow_loops_ok; [apply vertex_loops_nodup|unfold vertex_loops; apply in_map; exact Hl|assumption].
Qed.
Lemma concat_rev_perm {A} (L0 : list (list A)) : Permutation (concat (map (@rev A) L0)) (concat L0).
Proof. induction L0 as [|l L0 IH]; [constructor|]. cbn [map concat]. rewrite IH. apply Permutation_app_tail. symmetry. apply Permutation_rev. Qed.
Lemma next_agrees d : In d (borders m) -> exists a, Border.next_on_border m d = Ok a /\ follow_loops (map (@rev edge) vertex_loops) (ends m d) = Ok (ends m a).
Proof.
  intros H. destruct (loop_of d H) as [l [Hl Hd]]. destruct ls_facts as [P F]. rewrite Forall_forall in F.
  destruct (cycle_pred m l d (F l Hl) Hd) as [a [Ha Ea]].
  destruct (follow_cycle l a Hl Ha) as [b [E1 [_ E2]]]. assert (b = d) by congruence. subst b.
  assert (Hb : In a (borders m)) by (apply (Permutation_in _ P); apply in_concat; eauto).
  exists a. split.
  - destruct (prev_border m G a Hb) as [y [Ey [_ [N _]]]]. congruence.
  - eapply follow_loops_ok; [|apply in_map; unfold vertex_loops; apply in_map; exact Hl|assumption].
    apply (Permutation_NoDup (Permutation_sym (concat_rev_perm _))). apply vertex_loops_nodup.
Qed.
(** Consecutive edges share a vertex *)
Lemma cycle_joined l : In l ls -> exists x t, l = x :: t /\
  forall p a b q, x :: t ++ [x] = p ++ a :: b :: q -> snd (ends m b) = fst (ends m a).
Proof.
  intros Hl. destruct ls_facts as [P F]. rewrite Forall_forall in F. destruct (F l Hl) as [x [t [E C]]]. exists x, t. split; [assumption|].
  intros p a b q Ea. pose proof (C _ _ _ _ Ea) as Pa.
  assert (Ha : In a (borders m)).
  { apply (Permutation_in _ P). apply in_concat. exists l. split; [assumption|]. rewrite E.
    assert (Hi : In a (x :: t ++ [x])) by (rewrite Ea; apply in_or_app; right; now left).
    change (x :: t ++ [x]) with ((x :: t) ++ [x]) in Hi. apply in_app_or in Hi as [Hi|[<-|[]]]; [assumption|now left]. }
  destruct (prev_border m G a Ha) as [y [Ey [_ [_ S]]]]. congruence.
Qed.
End Vertices.

(** ** Adjacencies computed from the triangles *)
Definition swap (e : Z * Z) : Z * Z := (snd e, fst e).
Definition bare (ts : list tri) : TMesh := mkTMesh ts (fun _ => None).
(** SurfaceMeshBuilder::compute_polygon_adjacencies of OpenGeode: the edge with the same vertices
    in opposite order *)
Definition mesh_of (ts : list tri) : TMesh :=
  mkTMesh ts (fun d => find (fun d' => edge_eqb (ends (bare ts) d') (swap (ends (bare ts) d))) (all_edges (bare ts))).
(** The edges of the triangles, in their direction *)
Definition tri_edges (ts : list tri) : list (Z * Z) :=
  flat_map (fun t : tri => let '(a, b, c) := t in [(a, b); (b, c); (c, a)]) ts.

Lemma ends_bare m d : ends m d = ends (bare (tm_tris m)) d.
Proof. reflexivity. Qed.
Lemma nthz_app_mid {A} (p : list A) x q : nthz (p ++ x :: q) (lenz p) = Some x.
Proof.
  unfold nthz, lenz. rewrite app_length. cbn [List.length].
  destruct (_ && _) eqn:E; [|apply andb_false_iff in E as [E|E]; [apply Z.leb_gt in E|apply Z.ltb_ge in E]; lia].
  rewrite Nat2Z.id. now rewrite nth_error_app2, Nat.sub_diag by lia.
Qed.
Lemma map_ends m : map (ends m) (all_edges m) = tri_edges (tm_tris m).
Proof.
  unfold all_edges, tri_edges.
  assert (K : forall q p, tm_tris m = p ++ q ->
    map (ends m) (flat_map (fun p0 => [(p0, 0); (p0, 1); (p0, 2)]) (rangez (lenz p) (List.length q)))
    = flat_map (fun t : tri => let '(a, b, c) := t in [(a, b); (b, c); (c, a)]) q).
  { induction q as [|t q IH]; intros p E; [reflexivity|]. cbn [List.length rangez flat_map]. rewrite map_app.
    replace (lenz p + 1) with (lenz (p ++ [t])) by (unfold lenz; rewrite app_length; cbn; lia).
    rewrite IH by (now rewrite <- app_assoc). f_equal. cbn [map]. unfold ends. cbn [fst snd]. rewrite E, !nthz_app_mid.
    destruct t as [[a b] c]. reflexivity. }
  specialize (K (tm_tris m) [] eq_refl). cbn [lenz List.length Z.of_nat] in K. exact K.
Qed.
Lemma nodup_map_inj {A B} (f : A -> B) l x y : NoDup (map f l) -> In x l -> In y l -> f x = f y -> x = y.
Proof.
  induction l as [|a l IH]; [contradiction|]. cbn [map]. intros N. apply NoDup_cons_iff in N as [N1 N2]. intros [<-|Hx] [<-|Hy] E; auto.
  - destruct N1. rewrite E. now apply in_map.
  - destruct N1. rewrite <- E. now apply in_map.
Qed.
Lemma mesh_of_adj ts d d' : tm_adj (mesh_of ts) d = Some d' -> In d' (all_edges (bare ts)) /\ ends (bare ts) d' = swap (ends (bare ts) d).
Proof. cbn [mesh_of tm_adj]. intros H. apply find_some in H as [H1 H2]. split; [assumption|]. now apply edge_eqb_eq. Qed.
Lemma mesh_of_complete ts d d' : NoDup (tri_edges ts) -> In d' (all_edges (bare ts)) -> ends (bare ts) d' = swap (ends (bare ts) d) ->
  tm_adj (mesh_of ts) d = Some d'.
Proof.
  intros N Hd' E. destruct (tm_adj (mesh_of ts) d) as [x|] eqn:Ex.
  - apply mesh_of_adj in Ex as [Hx Ex]. f_equal. apply (nodup_map_inj (ends (bare ts)) (all_edges (bare ts))); auto; [|congruence].
    now rewrite map_ends.
  - cbn [mesh_of tm_adj] in Ex. apply (find_none _ _ Ex) in Hd'. rewrite E in Hd'.
    rewrite (proj2 (edge_eqb_eq _ _) eq_refl) in Hd'. discriminate.
Qed.
Lemma swap_swap e : swap (swap e) = e.
Proof. now destruct e. Qed.
(** When no directed edge is in two triangles, these adjacencies are as expected *)
Lemma mesh_of_good ts : NoDup (tri_edges ts) -> good_mesh (mesh_of ts).
Proof.
  intros N. constructor; intros d d' Hd H; apply mesh_of_adj in H as [Hd' E].
  - exact Hd'.
  - apply mesh_of_complete; [assumption|exact Hd|]. rewrite E. now rewrite swap_swap.
  - change (ends (mesh_of ts)) with (ends (bare ts)). rewrite E. split; reflexivity.
Qed.
Lemma mesh_of_border ts d : NoDup (tri_edges ts) -> In d (all_edges (mesh_of ts)) ->
  (In d (borders (mesh_of ts)) <-> ~ In (swap (ends (mesh_of ts) d)) (tri_edges ts)).
Proof.
  intros N Hd. rewrite in_borders. split.
  - intros [_ H] Hi. change (tri_edges ts) with (tri_edges (tm_tris (bare ts))) in Hi. rewrite <- map_ends in Hi. apply in_map_iff in Hi as [d' [E Hd']].
    rewrite (mesh_of_complete ts d d') in H; [discriminate|assumption|assumption|exact E].
  - intros H. split; [assumption|]. destruct (tm_adj (mesh_of ts) d) as [x|] eqn:Ex; [|reflexivity].
    apply mesh_of_adj in Ex as [Hx Ex]. destruct H. change (tri_edges ts) with (tri_edges (tm_tris (bare ts))). rewrite <- map_ends. apply in_map_iff. eauto.
Qed.
Lemma mesh_of_distinct ts : NoDup (tri_edges ts) -> forall d d', In d (borders (mesh_of ts)) -> In d' (borders (mesh_of ts)) ->
  ends (mesh_of ts) d = ends (mesh_of ts) d' -> d = d'.
Proof.
  intros N d d' H H'. apply in_borders in H as [H _]. apply in_borders in H' as [H' _].
  apply (nodup_map_inj (ends (mesh_of ts)) (all_edges (mesh_of ts))); auto. now rewrite map_ends.
Qed.
