(** * Properties C52, C87 and C88: shapefiles. *)
From Coq Require Import ZArith List Lia Bool Ascii String.
From Verif Require Import Base Text GocadModel LsoFacts ShpModel.
Import ListNotations.
Local Open Scope string_scope.
Local Open Scope list_scope.
Local Open Scope Z_scope.

(** ** Specification *)
Section Spec.
Context {P : Type} (peq : P -> P -> bool) (triangulate : list P -> list (list Z)).
(** The last point of the polyline equals the first. *)
Definition closedb (l : list P) : bool := match l with [] => false | p :: _ => peq p (last l p) end.
(** The vertices: the closing point is not repeated. *)
Definition kept (l : list P) : list P := if closedb l then removelast l else l.
(** Edges between consecutive vertices among the [n] from [o]. *)
Fixpoint chain (o : Z) (n : nat) : list (list Z) :=
  match n with O => [] | S m => match m with O => [] | S _ => [o; o + 1] :: chain (o + 1) m end end.
Definition edges_of (o : Z) (l : list P) : list (list Z) :=
  chain o (List.length (kept l)) ++ (if closedb l then [[o; o + lenz (kept l) - 1]] else []).
(** Each polyline or ring with the rank of its first vertex. *)
Fixpoint parts (o : Z) (ls : list (list P)) : list (Z * list P) :=
  match ls with [] => [] | l :: r => (o, l) :: parts (o + lenz (kept l)) r end.
(** The polygon of a ring: its vertices in order; triangles from 255 vertices. *)
Definition polygons_of (o : Z) (l : list P) : list (list Z) :=
  if lenz (kept l) <? 255 then [rangez o (List.length (kept l))] else map (map (Z.add o)) (triangulate (kept l)).
(** The polylines, rings and points of a layer, in order. *)
Definition polylines (y : layer P) : list (list P) :=
  flat_map (fun g => match g with GLine _ l => [l] | GMultiLine _ ls => ls | _ => [] end) (y_features P y).
Definition rings (y : layer P) : list (list P) :=
  flat_map (fun g => match g with GPolygon _ r => r | GMultiPolygon _ l => List.concat l | _ => [] end) (y_features P y).
Definition points_of (y : layer P) : list P :=
  flat_map (fun g => match g with GPoint _ p => [p] | _ => [] end) (y_features P y).
(** Layers that can be read: polylines of at least two points; closed rings of at least four. *)
Definition readable (y : layer P) : Prop :=
  ~ In (GMissing P) (y_features P y) /\ (y_type P y = TLine -> Forall (fun l => 2 <= lenz l) (polylines y))
  /\ (y_type P y = TPolygon -> Forall (fun l => 4 <= lenz l /\ closedb l = true) (rings y)).
(** The line of a layer, its unique vertices being numbered from [u]. *)
Definition line_of (u : Z) (y : layer P) : component P :=
  mkComponent P (y_name P y) (flat_map kept (polylines y)) (map Some (rangez u (List.length (flat_map kept (polylines y)))))
    (flat_map (fun e => edges_of (fst e) (snd e)) (parts 0 (polylines y))).
Definition surface_of (u : Z) (y : layer P) : component P :=
  mkComponent P (y_name P y) (flat_map kept (rings y)) (map Some (rangez u (List.length (flat_map kept (rings y)))))
    (flat_map (fun e => polygons_of (fst e) (snd e)) (parts 0 (rings y))).
(** The corner of a layer of points: only its first point has a unique vertex, the last one created. *)
Definition corner_of (u : Z) (y : layer P) : component P :=
  mkComponent P (y_name P y) (points_of y)
    (match points_of y with [] => [] | _ :: r => Some (u + lenz r) :: map (fun _ => None) r end) [].
(** The components of the layers, in order, and the number of unique vertices. *)
Definition nb_new (y : layer P) : Z :=
  match y_type P y with TPoint => lenz (points_of y) | TLine => lenz (flat_map kept (polylines y)) | TPolygon => lenz (flat_map kept (rings y)) | TOther => 0 end.
Fixpoint section_of (u : Z) (ys : list (layer P)) : section P :=
  match ys with
  | [] => mkSection P [] [] [] u
  | y :: r =>
      let s := section_of (u + nb_new y) r in
      match y_type P y with
      | TPoint => mkSection P (corner_of u y :: s_corners P s) (s_lines P s) (s_surfaces P s) (s_nb_uv P s)
      | TLine => mkSection P (s_corners P s) (line_of u y :: s_lines P s) (s_surfaces P s) (s_nb_uv P s)
      | TPolygon => mkSection P (s_corners P s) (s_lines P s) (surface_of u y :: s_surfaces P s) (s_nb_uv P s)
      | TOther => s
      end
  end.

(** ** Facts *)
Lemma firstn_removelast {A} (l : list A) : firstn (List.length l - 1) l = removelast l.
Proof.
  induction l as [|a l IH]; [reflexivity|]. destruct l as [|b l]; [reflexivity|]. change (removelast (a :: b :: l)) with (a :: removelast (b :: l)).
  rewrite <- IH. cbn [List.length]. replace (S (S (List.length l)) - 1)%nat with (S (S (List.length l) - 1)) by lia. reflexivity.
Qed.
Lemma is_closed_is l : l <> [] -> is_closed P peq l = Ok (closedb l).
Proof. destruct l; [congruence|reflexivity]. Qed.
Lemma kept_firstn l : firstn (if closedb l then List.length l - 1 else List.length l) l = kept l.
Proof. unfold kept. destruct (closedb l); [apply firstn_removelast|apply firstn_all]. Qed.
Lemma kept_length l : List.length (kept l) = (if closedb l then List.length l - 1 else List.length l)%nat.
Proof. rewrite <- kept_firstn, firstn_length. destruct (closedb l); lia. Qed.
Definition append (c : component P) (pts : list P) (uv : Z) (cells : list (list Z)) : component P :=
  mkComponent P (c_name P c) (c_points P c ++ pts) (c_uv P c ++ map Some (rangez uv (List.length pts))) (c_cells P c ++ cells).
Lemma read_points_is l c uv : l <> [] -> read_points P peq l c uv = Ok (append c (kept l) uv [], uv + lenz (kept l), lenz (c_points P c)).
Proof.
  intros N. unfold read_points. rewrite is_closed_is by assumption. cbn [bind]. rewrite kept_firstn, <- kept_length.
  unfold append. now rewrite app_nil_r.
Qed.
Lemma chain_map o n : chain o n = map (fun p => [p; p + 1]) (rangez o (n - 1)).
Proof.
  revert o. induction n as [|n IH]; intros o; [reflexivity|]. destruct n as [|n]; [reflexivity|].
  change (chain o (S (S n))) with ([o; o + 1] :: chain (o + 1) (S n)). rewrite IH. cbn [Nat.sub]. now rewrite Nat.sub_0_r.
Qed.
Lemma read_line_is l c uv : 2 <= lenz l -> read_line P peq l c uv
  = Ok (append c (kept l) uv (edges_of (lenz (c_points P c)) l), uv + lenz (kept l)).
Proof.
  intros H. assert (N : l <> []) by (intros ->; cbn in H; lia). unfold read_line. rewrite read_points_is by assumption. cbn [bind].
  assert (K : 1 <= lenz (kept l)) by (unfold lenz in *; rewrite kept_length; destruct (closedb l); lia).
  cbn [append c_points]. rewrite lenz_app. destruct (Z.ltb_spec (lenz (c_points P c) + lenz (kept l) - 1) (lenz (c_points P c))); [lia|].
  rewrite is_closed_is by assumption. cbn [bind]. unfold edges_of. rewrite chain_map.
  replace (Z.to_nat (lenz (c_points P c) + lenz (kept l) - 1 - lenz (c_points P c))) with (List.length (kept l) - 1)%nat by (unfold lenz; lia).
  unfold append, with_cells. cbn. destruct (closedb l); rewrite ?app_nil_r, <- ?app_assoc; reflexivity.
Qed.
Lemma append_append c p1 u1 k1 p2 k2 : append (append c p1 u1 k1) p2 (u1 + lenz p1) k2 = append c (p1 ++ p2) u1 (k1 ++ k2).
Proof.
  unfold append. cbn. rewrite <- !app_assoc, <- map_app, app_length. repeat f_equal.
  clear. revert u1. induction p1 as [|a l IH]; intros u; cbn [List.length rangez app Nat.add]; [f_equal; unfold lenz; cbn; lia|].
  f_equal. rewrite <- IH. f_equal. f_equal. rewrite lenz_cons. lia.
Qed.
(** Reading a list of parts that each append. *)
Lemma read_parts (f : list P -> component P -> Z -> res (component P * Z)) (g : Z -> list P -> list (list Z)) ls :
  Forall (fun l => forall c uv, f l c uv = Ok (append c (kept l) uv (g (lenz (c_points P c)) l), uv + lenz (kept l))) ls ->
  forall c uv, foldM (fun s l => f l (fst s) (snd s)) ls (c, uv)
  = Ok (append c (flat_map kept ls) uv (flat_map (fun e => g (fst e) (snd e)) (parts (lenz (c_points P c)) ls)), uv + lenz (flat_map kept ls)).
Proof.
  induction ls as [|l ls IH]; intros H c uv; cbn [foldM flat_map parts fst snd].
  - unfold append. cbn. now rewrite !app_nil_r, Z.add_0_r, <- surjective_pairing || (destruct c; cbn; rewrite !app_nil_r, Z.add_0_r).
  - inversion H as [|? ? H1 H2]; subst. rewrite H1. cbn [bind]. rewrite (IH H2). rewrite append_append. cbn [append c_points].
    rewrite !lenz_app. f_equal. f_equal. lia.
Qed.
Lemma foldM_flat {A B S} (f : S -> B -> res S) (h : A -> list B) (g : S -> A -> res S) l : (forall a, In a l -> forall s, g s a = foldM f (h a) s) ->
  forall s, foldM g l s = foldM f (flat_map h l) s.
Proof.
  induction l as [|a l IH]; intros H s; [reflexivity|]. cbn [foldM flat_map]. rewrite foldM_app, (H a) by now left.
  destruct (foldM f (h a) s); cbn [bind]; try reflexivity. apply IH. intros b Hb. apply H. now right.
Qed.
Lemma foldM_one {A S} (f : S -> A -> res S) a s : foldM f [a] s = f s a.
Proof. cbn. now destruct (f s a). Qed.
Lemma line_layer y uv : ~ In (GMissing P) (y_features P y) -> Forall (fun l => 2 <= lenz l) (polylines y) ->
  foldM (line_feature P peq) (y_features P y) (empty_component P (y_name P y), uv) = Ok (line_of uv y, uv + lenz (flat_map kept (polylines y))).
Proof.
  intros M F. rewrite (foldM_flat (fun s l => read_line P peq l (fst s) (snd s)) (fun g => match g with GLine _ l => [l] | GMultiLine _ ls => ls | _ => [] end)).
  - fold (polylines y). rewrite (read_parts (read_line P peq) edges_of).
    + reflexivity.
    + rewrite Forall_forall in *. intros l Hl c u. apply read_line_is. auto.
  - intros g Hg s. destruct g; cbn [line_feature]; try reflexivity; [contradiction|now rewrite foldM_one|]. unfold read_lines. now destruct s.
Qed.
Lemma read_ring_is l c uv : 4 <= lenz l -> closedb l = true -> read_ring P peq triangulate l c uv
  = Ok (append c (kept l) uv (polygons_of (lenz (c_points P c)) l), uv + lenz (kept l)).
Proof.
  intros H C. assert (N : l <> []) by (intros ->; cbn in H; lia). unfold read_ring. rewrite read_points_is by assumption. cbn [bind].
  assert (K : (List.length l - 1)%nat = List.length (kept l)) by (rewrite kept_length, C; reflexivity).
  assert (K2 : firstn (List.length l - 1) l = kept l) by (pose proof (kept_firstn l) as Q; now rewrite C in Q).
  rewrite K2, K. unfold polygons_of, NO_LID, lenz in *. assert (3 <= Z.of_nat (List.length (kept l))) by lia.
  destruct (Z.ltb_spec (Z.of_nat (List.length (kept l))) 255).
  - destruct (Z.ltb_spec (Z.of_nat (List.length (kept l))) 3); [lia|]. unfold with_cells, append. cbn. now rewrite <- app_assoc.
  - unfold with_cells, append. cbn. now rewrite <- app_assoc.
Qed.
Lemma surface_layer y uv : ~ In (GMissing P) (y_features P y) -> Forall (fun l => 4 <= lenz l /\ closedb l = true) (rings y) ->
  foldM (surface_feature P peq triangulate) (y_features P y) (empty_component P (y_name P y), uv) = Ok (surface_of uv y, uv + lenz (flat_map kept (rings y))).
Proof.
  intros M F. rewrite (foldM_flat (fun s l => read_ring P peq triangulate l (fst s) (snd s)) (fun g => match g with GPolygon _ r => r | GMultiPolygon _ l => List.concat l | _ => [] end)).
  - fold (rings y). rewrite (read_parts (read_ring P peq triangulate) polygons_of).
    + reflexivity.
    + rewrite Forall_forall in *. intros l Hl c u. destruct (F l Hl). now apply read_ring_is.
  - intros g Hg s. destruct g; cbn [surface_feature]; try reflexivity; [contradiction|unfold read_polygon; now destruct s|].
    rewrite <- (flat_map_concat_map (fun x => x)) || idtac. 
    rewrite (foldM_flat (fun s l => read_ring P peq triangulate l (fst s) (snd s)) (fun r => r)).
    + now rewrite flat_map_concat_map, map_id.
    + intros r _ s'. unfold read_polygon. now destruct s'.
Qed.
Lemma corner_layer y uv : ~ In (GMissing P) (y_features P y) ->
  foldM (corner_feature P) (y_features P y) (empty_component P (y_name P y), uv) = Ok (corner_of uv y, uv + lenz (points_of y)).
Proof.
  intros M. rewrite (foldM_flat (fun s p => Ok (read_point P p (fst s) (snd s))) (fun g => match g with GPoint _ p => [p] | _ => [] end)).
  - fold (points_of y). unfold corner_of. generalize (points_of y) as ps. clear M. intros ps.
    destruct ps as [|p ps]; [cbn; now rewrite Z.add_0_r|]. cbn [foldM bind fst snd read_point empty_component c_name c_points c_uv c_cells app].
    assert (G : forall q (r : list P) ps u, foldM (fun s p => Ok (read_point P p (fst s) (snd s))) ps
        (mkComponent P (y_name P y) (q :: r) (Some u :: map (fun _ => None) r) [], u + 1)
      = Ok (mkComponent P (y_name P y) (q :: r ++ ps) (Some (u + lenz ps) :: map (fun _ => None) (r ++ ps)) [], u + 1 + lenz ps)).
    { clear. intros q r ps. revert r. induction ps as [|p ps IH]; intros r u; cbn [foldM bind].
      - unfold lenz. cbn. now rewrite !Z.add_0_r, app_nil_r.
      - unfold read_point. cbn [fst snd c_name c_points c_uv c_cells]. specialize (IH (r ++ [p]) (u + 1)). rewrite map_app in IH. cbn [map app] in IH |- *.
        eapply eq_trans; [exact IH|]. rewrite <- app_assoc. cbn [app]. rewrite lenz_cons. repeat (f_equal; try lia). }
    eapply eq_trans; [exact (G p [] ps uv)|]. cbn [app]. rewrite lenz_cons. repeat (f_equal; try lia).
  - intros g Hg s. destruct g; try reflexivity. contradiction.
Qed.
End Spec.

(** ** C52, C87, C88: the section read *)
(** The whole section: a component per layer, made of the vertices and cells of its polylines, rings or points. *)
Theorem C52_section : forall P peq triangulate (ys : list (layer P)), Forall (readable peq) ys ->
  read_shp P peq triangulate ys = Ok (section_of peq triangulate 0 ys).
Proof.
  intros P peq tr ys H. unfold read_shp.
  enough (G : forall cs ls ss u, foldM (read_layer P peq tr) ys (mkSection P cs ls ss u)
    = Ok (let s := section_of peq tr u ys in mkSection P (cs ++ s_corners P s) (ls ++ s_lines P s) (ss ++ s_surfaces P s) (s_nb_uv P s))).
  { rewrite G. cbn. now destruct (section_of peq tr 0 ys). }
  induction H as [|y ys [M [L S]] _ IH]; intros cs ls ss u; cbn [foldM section_of]; cbv zeta; [cbn; now rewrite !app_nil_r|].
  unfold read_layer at 1, nb_new. cbn [s_nb_uv s_corners s_lines s_surfaces]. destruct (y_type P y).
  - rewrite corner_layer by assumption. cbn [bind]. rewrite IH. cbn. now rewrite <- app_assoc.
  - rewrite line_layer by auto. cbn [bind]. rewrite IH. cbn. now rewrite <- app_assoc.
  - rewrite surface_layer by auto. cbn [bind]. rewrite IH. cbn. now rewrite <- app_assoc.
  - cbn [bind]. rewrite IH. now rewrite Z.add_0_r.
Qed.
Print Assumptions C52_section.
Section Shapes.
Context {P : Type} (peq : P -> P -> bool).
(** Number of edges at a vertex (an edge from a vertex to itself counts twice). *)
Definition degree (es : list (list Z)) (v : Z) : nat := count_occ Z.eq_dec (List.concat es) v.
Lemma chain_length o n : List.length (chain o n) = (n - 1)%nat.
Proof. rewrite chain_map, map_length. generalize (n - 1)%nat as m. intros m. revert o. induction m; intros; cbn; auto. Qed.
Lemma nthz_chain o n i : nthz (chain o n) i = if (0 <=? i) && (i <? Z.of_nat n - 1) then Some [o + i; o + i + 1] else None.
Proof.
  rewrite chain_map, nthz_map. destruct (Z.leb_spec 0 i), (Z.ltb_spec i (Z.of_nat n - 1)); cbn [andb].
  1: now rewrite nthz_rangez by lia.
  all: destruct (nthz (rangez o (n - 1)) i) eqn:E; [|reflexivity]; apply nthz_range in E; exfalso; unfold lenz in E;
    pose proof (chain_length o n) as L; rewrite chain_map, map_length in L; lia.
Qed.
Lemma degree_chain n : forall o v, degree (chain o n) v
  = if (n <=? 1)%nat then 0%nat else ((if ((o <=? v) && (v <? o + Z.of_nat n - 1))%Z then 1 else 0) + (if ((o <? v) && (v <=? o + Z.of_nat n - 1))%Z then 1 else 0))%nat.
Proof.
  induction n as [|n IH]; intros o v; [reflexivity|]. destruct n as [|n]; [reflexivity|].
  change (chain o (S (S n))) with ([o; o + 1] :: chain (o + 1) (S n)). unfold degree. cbn [List.concat]. rewrite count_occ_app. fold (degree (chain (o + 1) (S n)) v).
  rewrite IH. cbn [count_occ Nat.leb].
  destruct n as [|n]; cbn [Nat.leb]; repeat destruct (Z.eq_dec _ _); destruct (Z.leb_spec o v), (Z.ltb_spec o v);
    repeat match goal with |- context [(?a <? ?b)] => destruct (Z.ltb_spec a b) | |- context [(?a <=? ?b)] => destruct (Z.leb_spec a b) end; cbn [andb]; lia.
Qed.
End Shapes.
(** An open polyline of n points gives its n points and edges i -- i+1 for i from 0 to n-2. *)
Theorem C52_open : forall P peq (l : list P) o, closedb peq l = false ->
  kept peq l = l /\ forall i, nthz (edges_of peq o l) i = if (0 <=? i) && (i <? lenz l - 1) then Some [o + i; o + i + 1] else None.
Proof.
  intros P peq l o H. unfold edges_of, kept. rewrite H. split; [reflexivity|]. intros i. rewrite app_nil_r. apply nthz_chain.
Qed.
Print Assumptions C52_open.
(** A closed one gives its n-1 first points and n-1 edges; each vertex is on exactly two of them (n at least 3). *)
Theorem C52_closed : forall P peq (l : list P) o, closedb peq l = true -> 3 <= lenz l ->
  kept peq l = removelast l /\ lenz (kept peq l) = lenz l - 1 /\ lenz (edges_of peq o l) = lenz l - 1
  /\ (forall i, 0 <= i < lenz l - 2 -> nthz (edges_of peq o l) i = Some [o + i; o + i + 1])
  /\ nthz (edges_of peq o l) (lenz l - 2) = Some [o; o + lenz l - 2]
  /\ forall v, degree (edges_of peq o l) v = if (o <=? v) && (v <? o + lenz l - 1) then 2%nat else 0%nat.
Proof.
  intros P peq l o H N.
  assert (K : List.length (kept peq l) = (List.length l - 1)%nat) by now rewrite kept_length, H.
  assert (E : edges_of peq o l = chain o (List.length l - 1) ++ [[o; o + lenz l - 2]]).
  { unfold edges_of. rewrite H. unfold lenz in *. rewrite K. replace (o + Z.of_nat (List.length l - 1) - 1) with (o + Z.of_nat (List.length l) - 2) by lia. reflexivity. }
  assert (C : List.length (chain o (List.length l - 1)) = (List.length l - 2)%nat) by (rewrite chain_length; lia).
  unfold lenz in N. split; [unfold kept; now rewrite H|]. split; [unfold lenz; lia|].
  split; [rewrite E; unfold lenz; rewrite app_length, C; cbn [List.length]; lia|]. split; [|split].
  - intros i Hi. unfold lenz in Hi. rewrite E. apply nthz_app_l. rewrite nthz_chain. destruct (Z.leb_spec 0 i), (Z.ltb_spec i (Z.of_nat (List.length l - 1) - 1)); cbn [andb]; try lia. reflexivity.
  - rewrite E. replace (lenz l - 2) with (lenz (chain o (List.length l - 1)) + 0) at 1 by (unfold lenz; lia). rewrite nthz_app_r by lia. reflexivity.
  - intros v. rewrite E. unfold degree. rewrite concat_app, count_occ_app. fold (degree (chain o (List.length l - 1)) v). rewrite degree_chain.
    destruct (Nat.leb_spec (List.length l - 1) 1); [lia|]. cbn [List.concat app count_occ]. unfold lenz.
    repeat destruct (Z.eq_dec _ _); repeat match goal with |- context [(?a <? ?b)] => destruct (Z.ltb_spec a b) | |- context [(?a <=? ?b)] => destruct (Z.leb_spec a b) end; cbn [andb]; lia.
Qed.
Print Assumptions C52_closed.
(** Polylines of a layer are not connected: the ends of every edge are vertices of one polyline, and the vertices of
    different polylines differ. *)
Theorem C52_not_connected : forall P peq (y : layer P) u, Forall (fun l => 2 <= lenz l) (polylines y) ->
  (forall e, In e (c_cells P (line_of peq u y)) -> exists o l a b, In (o, l) (parts peq 0 (polylines y)) /\ e = [a; b]
    /\ o <= a < o + lenz (kept peq l) /\ o <= b < o + lenz (kept peq l))
  /\ (forall i j oi li oj lj, nthz (parts peq 0 (polylines y)) i = Some (oi, li) -> nthz (parts peq 0 (polylines y)) j = Some (oj, lj) -> i < j ->
     oi + lenz (kept peq li) <= oj)
  /\ (forall i o l, nthz (parts peq 0 (polylines y)) i = Some (o, l) -> nthz (polylines y) i = Some l
     /\ forall k, 0 <= k < lenz (kept peq l) -> nthz (c_points P (line_of peq u y)) (o + k) = nthz (kept peq l) k).
Proof.
  intros P peq y u F. split; [|split].
  - intros e He. cbn [line_of c_cells] in He. apply in_flat_map in He as [[o l] [H1 H2]]. cbn [fst snd] in H2.
    assert (L : 2 <= lenz l).
    { rewrite Forall_forall in F. apply F. clear -H1. revert H1. generalize 0 at 1 as z. induction (polylines y) as [|m ls IH]; intros z; [intros []|]. cbn [parts In].
      intros [H|H]; [left; congruence|right; eauto]. }
    assert (K : 1 <= lenz (kept peq l)) by (unfold lenz in *; rewrite kept_length; destruct (closedb peq l); lia).
    unfold edges_of in H2. apply in_app_iff in H2 as [H2|H2].
    + apply nthz_of_in in H2 as [i H2]. rewrite nthz_chain in H2. destruct (Z.leb_spec 0 i), (Z.ltb_spec i (Z.of_nat (List.length (kept peq l)) - 1)); cbn [andb] in H2; try discriminate H2.
      exists o, l, (o + i), (o + i + 1). split; [assumption|]. split; [congruence|]. unfold lenz. lia.
    + destruct (closedb peq l); [|destruct H2]. destruct H2 as [<-|[]]. exists o, l, o, (o + lenz (kept peq l) - 1). split; [assumption|]. split; [reflexivity|]. lia.
  - generalize 0 as z. induction (polylines y) as [|m ls IH]; intros z i j oi li oj lj Hi Hj L.
    + apply nthz_range in Hi. unfold lenz in Hi. cbn in Hi. lia.
    + cbn [parts] in Hi, Hj. rewrite nthz_cons in Hi. rewrite nthz_cons in Hj. apply Forall_inv_tail in F.
      destruct (Z.eqb_spec j 0); [destruct (Z.eqb_spec i 0); [lia|]; apply nthz_range in Hi; lia|].
      destruct (Z.eqb_spec i 0).
      * assert (oi = z /\ li = m) as [-> ->] by (split; congruence). clear -Hj. revert Hj. generalize (j - 1) as k.
        assert (G : forall ls z k, nthz (parts peq z ls) k = Some (oj, lj) -> z <= oj).
        { clear. induction ls as [|m ls IH]; intros z k H; [apply nthz_range in H; unfold lenz in H; cbn in H; lia|]. cbn [parts] in H.
          rewrite nthz_cons in H. destruct (k =? 0); [assert (oj = z) by congruence; lia|]. apply IH in H. pose proof (lenz_nonneg (kept peq m)). lia. }
        intros k H. now apply G in H.
      * eapply (IH F _ (i - 1) (j - 1)); [exact Hi|exact Hj|lia].
  - intros i o l H. cbn [line_of c_points].
    enough (G : forall ls z i o l, nthz (parts peq z ls) i = Some (o, l) -> nthz ls i = Some l
      /\ z <= o /\ forall k, 0 <= k < lenz (kept peq l) -> nthz (flat_map (kept peq) ls) (o - z + k) = nthz (kept peq l) k).
    { destruct (G _ _ _ _ _ H) as [G1 [_ G2]]. split; [exact G1|]. intros k Hk. rewrite <- (G2 k Hk). f_equal. lia. }
    clear. induction ls as [|m ls IH]; intros z i o l H; [apply nthz_range in H; unfold lenz in H; cbn in H; lia|].
    cbn [parts] in H. rewrite nthz_cons in H. rewrite nthz_cons. cbn [flat_map]. destruct (Z.eqb_spec i 0).
    + assert (o = z /\ l = m) as [-> ->] by (split; congruence). split; [reflexivity|]. split; [lia|]. intros k Hk. rewrite Z.sub_diag. cbn [Z.add].
      destruct (nthz (kept peq m) k) as [x|] eqn:E; [now apply nthz_app_l|]. exfalso. unfold nthz, lenz in *. destruct (Z.leb_spec 0 k), (Z.ltb_spec k (Z.of_nat (List.length (kept peq m)))); try lia. cbn [andb] in E. apply nth_error_None in E. lia.
    + destruct (IH _ _ _ _ H) as [I1 [I2 I3]]. split; [exact I1|]. pose proof (lenz_nonneg (kept peq m)). split; [lia|]. intros k Hk.
      rewrite <- (I3 k Hk). replace (o - z + k) with (lenz (kept peq m) + (o - (z + lenz (kept peq m)) + k)) by lia. apply nthz_app_r. lia.
Qed.
Print Assumptions C52_not_connected.
(** A polyline of one point makes the reader create an edge between missing vertices. *)
Theorem C52_one_point_refuted : exists ys : list (layer Z), read_shp Z Z.eqb (fun _ => []) ys = UB.
Proof. exists [mkLayer Z "l" TLine [GLine Z [3]]]. vm_compute. reflexivity. Qed.
Print Assumptions C52_one_point_refuted.
Definition ex_layers : list (layer Z) :=
  [mkLayer Z "lines" TLine [GLine Z [10; 11; 12]; GMultiLine Z [[20; 21; 22; 20]; [30; 31]]];
   mkLayer Z "area" TPolygon [GPolygon Z [[1; 2; 3; 4; 1]]];
   mkLayer Z "pt" TPoint [GPoint Z 7]].
Example C52_case : Forall (readable Z.eqb) ex_layers /\ read_shp Z Z.eqb (fun _ => []) ex_layers
  = Ok (mkSection Z
    [mkComponent Z "pt" [7] [Some 12] []]
    [mkComponent Z "lines" [10; 11; 12; 20; 21; 22; 30; 31] (map Some [0; 1; 2; 3; 4; 5; 6; 7]) [[0; 1]; [1; 2]; [3; 4]; [4; 5]; [3; 5]; [6; 7]]]
    [mkComponent Z "area" [1; 2; 3; 4] (map Some [8; 9; 10; 11]) [[0; 1; 2; 3]]] 13).
Proof.
  split; [|vm_compute; reflexivity]. repeat (apply Forall_cons || apply Forall_nil); (split; [cbn; intuition discriminate|]); split; intros H; try discriminate H;
    cbn; repeat (apply Forall_cons || apply Forall_nil); cbn; try lia; (split; [cbn; lia|reflexivity]).
Qed.

(** ** C87: points *)
(** A layer of exactly one point is a corner with a unique vertex. *)
Theorem C87_one_point : forall P peq tr (y : layer P) p, y_type P y = TPoint -> ~ In (GMissing P) (y_features P y) -> points_of y = [p] ->
  exists s, read_shp P peq tr [y] = Ok s /\ s_corners P s = [mkComponent P (y_name P y) [p] [Some 0] []] /\ s_nb_uv P s = 1.
Proof.
  intros P peq tr y p T M E. exists (section_of peq tr 0 [y]). split.
  - apply C52_section. constructor; [|constructor]. split; [assumption|]. split; intros Q; congruence.
  - cbn [section_of]. rewrite T. cbn [s_corners s_nb_uv]. unfold corner_of, nb_new. rewrite T, E. split; reflexivity.
Qed.
Print Assumptions C87_one_point.
(** But all the points of a layer go to one corner; the unique vertices of all but the last are left unused, and the points
    after the first have none. *)
Theorem C87_several_points_refuted : forall P peq tr (y : layer P), y_type P y = TPoint -> ~ In (GMissing P) (y_features P y) -> 2 <= lenz (points_of y) ->
  exists s c, read_shp P peq tr [y] = Ok s /\ s_corners P s = [c] /\ c_points P c = points_of y /\ s_nb_uv P s = lenz (points_of y)
  /\ nthz (c_uv P c) 0 = Some (Some (lenz (points_of y) - 1)) /\ (forall i, 1 <= i < lenz (points_of y) -> nthz (c_uv P c) i = Some None).
Proof.
  intros P peq tr y T M E. exists (section_of peq tr 0 [y]), (corner_of 0 y). split.
  - apply C52_section. constructor; [|constructor]. split; [assumption|]. split; intros Q; congruence.
  - cbn [section_of]. rewrite T. cbn [s_corners s_nb_uv]. unfold nb_new. rewrite T. split; [reflexivity|]. split; [reflexivity|]. split; [lia|].
    unfold corner_of. cbn [c_uv]. destruct (points_of y) as [|p r]; [cbn in E; lia|]. split; [rewrite nthz_cons, lenz_cons; change (0 =? 0) with true; cbv iota; do 2 f_equal; lia|].
    intros i Hi. rewrite nthz_cons. rewrite lenz_cons in Hi. destruct (Z.eqb_spec i 0); [lia|]. rewrite nthz_map. unfold nthz, lenz in *.
    destruct (Z.leb_spec 0 (i - 1)), (Z.ltb_spec (i - 1) (Z.of_nat (List.length r))); try lia. cbn [andb]. destruct (nth_error r _) eqn:Q; [reflexivity|]. apply nth_error_None in Q. lia.
Qed.
Print Assumptions C87_several_points_refuted.
Example C87_case : read_shp Z Z.eqb (fun _ => []) [mkLayer Z "pts" TPoint [GPoint Z 5; GPoint Z 6; GPoint Z 7]]
  = Ok (mkSection Z [mkComponent Z "pts" [5; 6; 7] [Some 2; None; None] []] [] [] 3).
Proof. vm_compute. reflexivity. Qed.

(** ** C88: polygons *)
(** A polygon without holes, of fewer than 255 vertices, is one polygon with its vertices in order. *)
Theorem C88_plain_polygon : forall P peq tr (y : layer P) l, y_type P y = TPolygon -> y_features P y = [GPolygon P [l]] ->
  4 <= lenz l <= 255 -> closedb peq l = true ->
  exists s, read_shp P peq tr [y] = Ok s /\ s_surfaces P s = [mkComponent P (y_name P y) (removelast l) (map Some (rangez 0 (List.length (removelast l))))
    [rangez 0 (List.length (removelast l))]].
Proof.
  intros P peq tr y l T E N C. exists (section_of peq tr 0 [y]). assert (R : rings y = [l]) by (unfold rings; rewrite E; reflexivity). split.
  - apply C52_section. constructor; [|constructor]. split; [rewrite E; intros [Q|[]]; discriminate Q|]. split; intros Q; [congruence|]. rewrite R. constructor; [split; [lia|assumption]|constructor].
  - cbn [section_of]. rewrite T. cbn [s_surfaces]. unfold surface_of. rewrite R. cbn [flat_map parts fst snd].
    assert (K : kept peq l = removelast l) by (unfold kept; now rewrite C). unfold polygons_of. pose proof (kept_length peq l) as L. rewrite C, K in L.
    rewrite K, !app_nil_r. destruct (Z.ltb_spec (lenz (removelast l)) 255) as [_|Q]; [reflexivity|]. unfold lenz in *. lia.
Qed.
Print Assumptions C88_plain_polygon.
(** The rings of a polygon with holes all become polygons: holes are filled. *)
Theorem C88_holes_refuted : forall P peq tr (y : layer P) outer hole, y_type P y = TPolygon -> y_features P y = [GPolygon P [outer; hole]] ->
  4 <= lenz outer <= 255 -> 4 <= lenz hole <= 255 -> closedb peq outer = true -> closedb peq hole = true ->
  exists s c, read_shp P peq tr [y] = Ok s /\ s_surfaces P s = [c] /\ c_points P c = removelast outer ++ removelast hole
  /\ c_cells P c = [rangez 0 (List.length (removelast outer)); rangez (lenz (removelast outer)) (List.length (removelast hole))].
Proof.
  intros P peq tr y l m T E N N' C C'. exists (section_of peq tr 0 [y]), (surface_of peq tr 0 y). assert (R : rings y = [l; m]) by (unfold rings; rewrite E; reflexivity). split.
  - apply C52_section. constructor; [|constructor]. split; [rewrite E; intros [Q|[]]; discriminate Q|]. split; intros Q; [congruence|]. rewrite R. repeat (constructor; [split; [lia|assumption]|]). constructor.
  - cbn [section_of]. rewrite T. cbn [s_surfaces]. split; [reflexivity|]. unfold surface_of. rewrite R. cbn [flat_map parts fst snd c_points c_cells].
    assert (K : kept peq l = removelast l) by (unfold kept; now rewrite C). assert (K' : kept peq m = removelast m) by (unfold kept; now rewrite C').
    pose proof (kept_length peq l) as L. rewrite C, K in L. pose proof (kept_length peq m) as L'. rewrite C', K' in L'.
    unfold polygons_of. rewrite K, K', !app_nil_r. split; [reflexivity|].
    destruct (Z.ltb_spec (lenz (removelast l)) 255) as [_|Q]; [|unfold lenz in *; lia].
    destruct (Z.ltb_spec (lenz (removelast m)) 255) as [_|Q]; [reflexivity|unfold lenz in *; lia].
Qed.
Print Assumptions C88_holes_refuted.
Example C88_case : read_shp Z Z.eqb (fun _ => []) [mkLayer Z "s" TPolygon [GPolygon Z [[1; 2; 3; 4; 1]; [5; 6; 7; 5]]]]
  = Ok (mkSection Z [] [] [mkComponent Z "s" [1; 2; 3; 4; 5; 6; 7] (map Some [0; 1; 2; 3; 4; 5; 6]) [[0; 1; 2; 3]; [4; 5; 6]]] 7).
Proof. vm_compute. reflexivity. Qed.
