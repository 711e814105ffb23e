(** * What is loaded is valid, whatever the file (C118). *)
From Coq Require Import ZArith List Lia Bool Ascii String.
From Verif Require Import Base Text TextFacts GocadModel MeshModel TsModel MultiFacts WellModel VoModel ExNum ExCheck PropsWell PropsVo PropsGrammar.
Import ListNotations.
Local Open Scope string_scope.
Local Open Scope list_scope.
Local Open Scope Z_scope.

(** ** Specification *)

(** The names are all different, none is that of the attribute of the coordinates, and every attribute has one value for each of the [n] elements. *)
Definition valid_attrs {V} (n : nat) (l : list (bytes * attr V)) : Prop :=
  NoDup (map fst l) /\ forall x a, In (x, a) l -> List.length (a_vals a) = n.
(** [corners c]: the vertices of cell [c]. *)
Definition valid_mesh {F C} (corners : C -> list Z) (m : mesh F C) : Prop :=
  (forall c v, In c (m_cells m) -> In v (corners c) -> 0 <= v < lenz (m_points m)) /\
  valid_attrs (List.length (m_points m)) (m_attrs m) /\ ~ In (lit "points") (map fst (m_attrs m)).
Definition ends (e : edge) : list Z := [fst e; snd e].
Definition three (t : tri) : list Z := let '(a, b, c) := t in [a; b; c].
Definition none (_ : unit) : list Z := [].
(** The edges join each vertex to the next one. *)
Definition one_line {F} (m : mesh F edge) : Prop := m_cells m = map (fun i => (i, i + 1)) (rangez 0 (List.length (m_points m) - 1)).

(** ** Steps *)
Section Steps.
Context {F : Num} {C : Type} (corners : C -> list Z).
Notation valid := (valid_mesh (F := F) corners).
Lemma empty_valid : valid empty_mesh.
Proof. split; [intros c v []|]. split; [split; [constructor|intros x a []]|intros []]. Qed.
Lemma named_valid n m : valid m -> valid (set_name n m).
Proof. destruct n; auto. Qed.
Lemma point_valid m p : valid m -> valid (create_point m p).
Proof.
  intros (H1 & (H2 & H3) & H4). unfold create_point. repeat split; cbn [m_points m_cells m_attrs].
  - destruct (H1 c v H H0). lia.
  - destruct (H1 c v H H0). unfold lenz in *. rewrite app_length. lia.
  - rewrite map_map. exact H2.
  - intros x a I. apply in_map_iff in I as ([y b] & E & I). injection E as <- <-. cbn [a_vals snd]. rewrite !app_length. cbn [List.length]. now rewrite (H3 y b I).
  - rewrite map_map. exact H4.
Qed.
Lemma points_valid ps : forall m, valid m -> valid (create_points ps m).
Proof. unfold create_points. induction ps as [|p ps IH]; intros m H; [exact H|]. cbn [fold_left]. apply IH. now apply point_valid. Qed.
Lemma cell_valid m c : valid m -> (forall v, In v (corners c) -> valid_vertex m v = true) -> valid (add_cell c m).
Proof.
  intros (H1 & H2) H. split; [|exact H2]. cbn [add_cell m_cells m_points]. intros d v I J. apply in_app_iff in I as [I|[<-|[]]]; [now apply (H1 d)|].
  apply H in J. unfold valid_vertex, nb_vertices in J. apply andb_true_iff in J as [J1 J2]. apply Z.leb_le in J1. apply Z.ltb_lt in J2. lia.
Qed.
Lemma replace_names {V} n (a : attr V) l x : In x (map fst (replace_attr n a l)) <-> In x (map fst l) \/ x = n.
Proof.
  induction l as [|[m b] l IH]; cbn [replace_attr map fst In]; [intuition|]. destruct (beq m n) eqn:E; cbn [map fst In].
  - apply beq_eq in E as ->. intuition.
  - rewrite IH. intuition.
Qed.
Lemma replace_nodup {V} n (a : attr V) l : NoDup (map fst l) -> NoDup (map fst (replace_attr n a l)).
Proof.
  induction l as [|[m b] l IH]; cbn [replace_attr map fst]; intros H; [repeat constructor; auto|]. apply NoDup_cons_iff in H as [H1 H2].
  destruct (beq m n) eqn:E; cbn [map fst]; constructor; auto.
  - apply beq_eq in E as <-. exact H1.
  - rewrite replace_names. intros [I|I]; [now apply H1|]. subst m. rewrite beq_refl in E. discriminate.
Qed.
Lemma replace_valid {V} k n (a : attr V) l : valid_attrs k l -> List.length (a_vals a) = k -> valid_attrs k (replace_attr n a l).
Proof.
  intros [H1 H2] Ha. split; [now apply replace_nodup|]. clear H1. induction l as [|[m b] l IH]; cbn [replace_attr]; intros x c I.
  - destruct I as [I|[]]. now injection I as <- <-.
  - destruct (beq m n); destruct I as [I|I].
    + now injection I as <- <-.
    + apply (H2 x). now right.
    + injection I as <- <-. apply (H2 m). now left.
    + apply IH with (x := x); [|exact I]. intros y d J. apply (H2 y). now right.
Qed.
Lemma set_valid m n a : valid m -> n <> lit "points" -> List.length (a_vals a) = List.length (m_points m) -> valid (set_attr_list m (replace_attr n a (m_attrs m))).
Proof.
  intros (H1 & H2 & H3) Hn Ha. split; [exact H1|]. cbn [set_attr_list m_attrs m_points]. split; [now apply replace_valid|].
  rewrite replace_names. intros [I|I]; [now apply H3|congruence].
Qed.
Lemma found_valid (m : mesh F C) n e d a : valid m -> find_or_create m n e d = Ok a -> List.length (a_vals a) = List.length (m_points m) /\ n <> lit "points".
Proof.
  intros (_ & (_ & H) & _) E. unfold find_or_create in E. destruct (beq n "points") eqn:B; [discriminate|]. split.
  - destruct (find_attr n (m_attrs m)) as [b|] eqn:Ef.
    + destruct (_ =? _); [|discriminate]. injection E as <-. apply find_attr_in in Ef as [n' Ef]. now apply (H n').
    + injection E as <-. cbn. apply map_length.
  - intros ->. rewrite beq_refl in B. discriminate.
Qed.
Lemma attributes_valid names : forall es ds vs nb mp (m m' : mesh F C), create_attributes_loop names es ds vs nb mp m = Ok m' -> valid m -> valid m'.
Proof.
  induction names as [|n ns IH]; intros es ds vs nb mp m m' E H; cbn [create_attributes_loop] in E; [now injection E as <-|].
  destruct es as [|e es], ds as [|d ds], vs as [|v vs]; try discriminate. cbv zeta in E. apply bind_ok in E as [a [Ea E]]. apply bind_ok in E as [vals [Ev E]].
  destruct (found_valid _ _ _ _ _ H Ea) as [La Hn]. apply (IH _ _ _ _ _ _ _ E). apply set_valid; [exact H|exact Hn|]. cbn [a_vals]. now rewrite (fill_attr_length _ _ _ _ _ _ _ _ Ev).
Qed.
End Steps.

Lemma foldM_keeps {A S} (f : S -> A -> res S) (P : S -> Prop) l : (forall s a s', P s -> f s a = Ok s' -> P s') -> forall s s', P s -> foldM f l s = Ok s' -> P s'.
Proof. intros H. induction l as [|a l IH]; intros s s' Hs E; cbn [foldM] in E; [now injection E as <-|]. apply bind_ok in E as [s1 [E1 E]]. eapply IH; [|exact E]. eapply H; eassumption. Qed.
Lemma triangle_valid {F} (m : mesh F tri) t m' : valid_mesh three m -> create_triangle m t = Ok m' -> valid_mesh three m'.
Proof.
  intros H E. destruct t as [[a b] c]. unfold create_triangle in E. destruct (_ && _ && _) eqn:V; [|discriminate]. injection E as <-.
  apply andb_true_iff in V as [V V3]. apply andb_true_iff in V as [V1 V2]. apply cell_valid; [exact H|]. cbn [three In]. intros v [<-|[<-|[<-|[]]]]; assumption.
Qed.
Lemma edge_valid {F} (m : mesh F edge) e m' : valid_mesh ends m -> create_edge m e = Ok m' -> valid_mesh ends m'.
Proof.
  intros H E. destruct e as [a b]. unfold create_edge in E. destruct (_ && _) eqn:V; [|discriminate]. injection E as <-. apply andb_true_iff in V as [V1 V2].
  apply cell_valid; [exact H|]. cbn [ends fst snd In]. intros v [<-|[<-|[]]]; assumption.
Qed.

(** ** Surfaces, point sets and curves *)
Theorem C118_surface : forall (F : Num) text m, read_ts F text = Ok m -> valid_mesh three m.
Proof.
  intros F text m. unfold read_ts. cbv zeta.
  assert (G : forall fuel s (m0 : mesh F tri), valid_mesh three m0 -> read_ts_loop fuel m0 s = Ok m -> valid_mesh three m).
  { induction fuel as [|fuel IH]; intros s m0 H E; cbn [read_ts_loop] in E; [discriminate|]. apply bind_ok in E as [[o s1] [_ E]]. destruct o as [d|]; [|now injection E as <-].
    apply bind_ok in E as [m1 [E1 E]]. assert (H1 : valid_mesh three m1); [|exact (IH _ _ H1 E)]. unfold build_surface in E1. cbv zeta in E1. apply bind_ok in E1 as [m2 [E2 E1]].
    apply (attributes_valid three) in E1; [exact E1|]. eapply (foldM_keeps create_triangle (valid_mesh three)); [|apply points_valid, named_valid; exact H|exact E2].
    intros; eapply triangle_valid; eassumption. }
  exact (G _ _ _ (empty_valid three)).
Qed.
Print Assumptions C118_surface.
Theorem C118_point_set : forall (F : Num) text m, read_vs F text = Ok m -> valid_mesh none m.
Proof.
  intros F text m. unfold read_vs. cbv zeta.
  assert (G : forall fuel s (m0 : mesh F unit), valid_mesh none m0 -> read_vs_loop fuel m0 s = Ok m -> valid_mesh none m).
  { induction fuel as [|fuel IH]; intros s m0 H E; cbn [read_vs_loop] in E; [discriminate|]. apply bind_ok in E as [[o s1] [_ E]]. destruct o as [d|]; [|now injection E as <-].
    apply bind_ok in E as [m1 [E1 E]]. assert (H1 : valid_mesh none m1); [|exact (IH _ _ H1 E)]. unfold build_point_set in E1. cbv zeta in E1.
    apply (attributes_valid none) in E1; [exact E1|]. apply points_valid, named_valid. exact H. }
  exact (G _ _ _ (empty_valid none)).
Qed.
Print Assumptions C118_point_set.
Theorem C118_curve : forall (F : Num) text m, read_pl F text = Ok m -> valid_mesh ends m.
Proof.
  intros F text m. unfold read_pl. cbv zeta.
  assert (G : forall fuel s (m0 : mesh F edge), valid_mesh ends m0 -> read_pl_loop fuel m0 s = Ok m -> valid_mesh ends m).
  { induction fuel as [|fuel IH]; intros s m0 H E; cbn [read_pl_loop] in E; [discriminate|]. apply bind_ok in E as [[o s1] [_ E]]. destruct o as [d|]; [|now injection E as <-].
    apply bind_ok in E as [m1 [E1 E]]. assert (H1 : valid_mesh ends m1); [|exact (IH _ _ H1 E)]. unfold build_curve in E1. cbv zeta in E1.
    eapply (foldM_keeps create_edge (valid_mesh ends)); [|apply points_valid, named_valid; exact H|exact E1]. intros; eapply edge_valid; eassumption. }
  exact (G _ _ _ (empty_valid ends)).
Qed.
Print Assumptions C118_curve.

(** ** Wells *)
Lemma edges_done {F} l : forall m m' : mesh F edge, foldM (fun m pt => create_edge m (pt, add32 pt 1)) l m = Ok m' ->
  m_points m' = m_points m /\ m_cells m' = m_cells m ++ map (fun pt => (pt, add32 pt 1)) l /\ (forall pt, In pt l -> 0 <= pt < lenz (m_points m)).
Proof.
  induction l as [|x l IH]; intros m m' E; cbn [foldM] in E; [injection E as <-; cbn; rewrite app_nil_r; repeat split; auto; intros; tauto|].
  apply bind_ok in E as [m1 [E1 E]]. unfold create_edge in E1. destruct (_ && _) eqn:V; [|discriminate]. injection E1 as <-. apply IH in E as (P & Q & R).
  cbn [add_cell m_points m_cells] in *. apply andb_true_iff in V as [V _]. unfold valid_vertex, nb_vertices in V. apply andb_true_iff in V as [V1 V2].
  apply Z.leb_le in V1. apply Z.ltb_lt in V2. split; [exact P|]. split; [rewrite Q, <- app_assoc; reflexivity|]. intros pt [<-|I]; [lia|now apply R].
Qed.
Lemma chain_of n : Z.of_nat n <= two32 -> map (fun pt => (pt, add32 pt 1)) (rangez 0 (n - 1)) = map (fun i => (i, i + 1)) (rangez 0 (n - 1)).
Proof. intros H. apply map_ext_in. intros i I. apply in_rangez in I. f_equal. unfold add32, wrap32. apply Z.mod_small. unfold two32 in *. lia. Qed.
Lemma create_edges_line {F} (m m' : mesh F edge) : valid_mesh ends m -> m_cells m = [] -> lenz (m_points m) <= two32 -> create_edges F m = Ok m' -> valid_mesh ends m' /\ one_line m'.
Proof.
  intros H Hc L E. split; [unfold create_edges in E; eapply (foldM_keeps _ (valid_mesh ends)); [|exact H|exact E]; intros s0 a0 s1 V0 E0; exact (edge_valid _ _ _ V0 E0)|].
  unfold create_edges in E. apply edges_done in E as (P & Q & R). unfold one_line. rewrite Q, Hc, P. cbn [app]. unfold nb_vertices in *. revert R. set (n := m_points m) in *.
  unfold sub32, wrap32. destruct n as [|p ps] eqn:En.
  - intros R. exfalso. destruct (R 0); [apply in_rangez; cbn; lia|]. unfold lenz in *. cbn in *. lia.
  - intros _. rewrite <- En in *. assert (1 <= lenz n) by (rewrite En; unfold lenz; cbn; lia). rewrite Z.mod_small by lia.
    replace (Z.to_nat (lenz n - 1)) with (List.length n - 1)%nat by (unfold lenz in *; lia). apply chain_of. exact L.
Qed.
(** A well with at most as many points as an index can count; the edges are the segments between consecutive points. *)
Theorem C118_rows : forall (F : Num) name text m, read_well F name text = Ok m -> lenz (m_points m) <= two32 -> valid_mesh ends m /\ one_line m /\ m_points m <> [].
Proof.
  intros F name text m E L. unfold read_well in E. apply bind_ok in E as [m0 [E0 E]].
  assert (H : valid_mesh ends m0 /\ m_cells m0 = []).
  { unfold read_rows in E0. apply (foldM_keeps _ (fun m => valid_mesh ends m /\ m_cells m = [])) in E0; [exact E0| |split; [apply (empty_valid ends)|reflexivity]].
    intros s a s' [H1 H2] Es. apply bind_ok in Es as [p [_ Es]]. injection Es as <-. split; [now apply point_valid|exact H2]. }
  pose proof E as E'. unfold create_edges in E'. apply edges_done in E' as (P & _ & R). rewrite P in L. destruct (create_edges_line _ _ (proj1 H) (proj2 H) L E) as [V O].
  split; [exact V|]. split; [exact O|]. intros N. rewrite N in P. destruct (R 0); [|rewrite <- P in *; unfold lenz in *; cbn in *; lia].
  apply in_rangez. unfold nb_vertices. rewrite <- P. cbn. lia.
Qed.
Print Assumptions C118_rows.
Theorem C118_dev : forall (F : Num) text m, read_dev F text = Ok m -> lenz (m_points m) <= two32 -> valid_mesh ends m /\ one_line m /\ m_points m <> [].
Proof.
  intros F text m E L. unfold read_dev in E. apply bind_ok in E as [s [_ E]]. apply bind_ok in E as [[h rows] [_ E]]. apply bind_ok in E as [m1 [E1 E]]. apply bind_ok in E as [m2 [E2 E]].
  assert (H1 : valid_mesh ends m1 /\ m_cells m1 = []).
  { unfold dev_create_attributes in E1. apply (foldM_keeps _ (fun m => valid_mesh ends m /\ m_cells m = [])) in E1; [exact E1| |split; [apply (empty_valid ends)|reflexivity]].
    intros s0 a s' [V1 V2] Es. apply bind_ok in Es as [b [Eb Es]]. injection Es as <-. destruct (found_valid ends _ _ _ _ _ V1 Eb). split; [now apply set_valid|exact V2]. }
  assert (H2 : valid_mesh ends m2 /\ m_cells m2 = []).
  { apply (foldM_keeps _ (fun m => valid_mesh ends m /\ m_cells m = [])) in E2; [exact E2| |exact H1]. clear. intros m a m' [V1 V2] E. unfold dev_row in E. cbv zeta in E.
    apply bind_ok in E as [u [_ E]]. apply bind_ok in E as [x [_ E]]. apply bind_ok in E as [y [_ E]]. apply bind_ok in E as [z [_ E]]. apply bind_ok in E as [[m1 k] [E1 E]]. injection E as <-.
    apply (foldM_keeps _ (fun st => valid_mesh ends (fst st) /\ m_cells (fst st) = [])) in E1; [exact E1| |split; [now apply point_valid|exact V2]].
    clear. intros [m0 c] [i t] [m0' c'] [V1 V2] E. unfold dev_assign in E. destruct (_ || _ || _); [injection E as <- <-; auto|]. apply bind_ok in E as [x [_ E]]. apply bind_ok in E as [n [_ E]].
    apply bind_ok in E as [m1 [E1 E]]. injection E as <- <-. cbn [fst] in *. unfold set_value in E1. destruct (find_attr n (m_attrs m0)) as [b|] eqn:Ef; [|discriminate].
    apply bind_ok in E1 as [vals [Es E1]]. injection E1 as <-. split; [|exact V2]. apply set_valid; [exact V1| |].
    - intros ->. destruct V1 as (_ & _ & V1). apply V1. unfold find_attr in Ef. destruct (find _ _) as [[q w]|] eqn:Q; [|discriminate]. apply find_some in Q as [Q1 Q2].
      cbn [fst] in Q2. apply beq_eq in Q2 as ->. apply in_map_iff. now exists (lit "points", w).
    - cbn [a_vals]. unfold setz in Es. destruct (_ && _); [|discriminate]. injection Es as <-. rewrite upd_length. apply find_attr_in in Ef as [n' Ef]. destruct V1 as (_ & (_ & V1) & _). now apply (V1 n'). }
  pose proof E as E'. unfold create_edges in E'. apply edges_done in E' as (P & _ & R). rewrite P in L. destruct (create_edges_line _ _ (proj1 H2) (proj2 H2) L E) as [V O].
  split; [exact V|]. split; [exact O|]. intros N. rewrite N in P. destruct (R 0); [|rewrite <- P in *; unfold lenz in *; cbn in *; lia].
  apply in_rangez. unfold nb_vertices. rewrite <- P. cbn. lia.
Qed.
Print Assumptions C118_dev.
Lemma paths_line {F} crs ref ls : forall m m' : mesh F edge, paths_loop F crs ref ls m = Ok m' -> valid_mesh ends m -> m_points m <> [] -> lenz (m_points m') <= two32 ->
  one_line m -> (valid_mesh ends m' /\ one_line m' /\ m_points m' <> []) /\ lenz (m_points m) <= lenz (m_points m').
Proof.
  induction ls as [|l ls IH]; intros m m' E V N L O; cbn [paths_loop] in E; [injection E as <-; split; [auto|lia]|].
  destruct (starts_with l "PATH"); [|injection E as <-; split; [auto|lia]]. apply bind_ok in E as [[[t0 t1] t2] [_ E]]. destruct ref as [[rx ry] rz]. cbv zeta in E.
  apply bind_ok in E as [m2 [E2 E]]. pose proof E2 as E2'. unfold create_edge in E2'. destruct (_ && _); [|discriminate]. injection E2' as E2'.
  assert (P2 : m_points m2 = m_points m ++ [(plus F t1 rx, plus F t2 ry, signed F crs t0)]) by (rewrite <- E2'; reflexivity).
  assert (V2 : valid_mesh ends m2) by (eapply edge_valid; [|exact E2]; now apply point_valid).
  assert (N2 : m_points m2 <> []) by (rewrite P2; intros X; destruct (m_points m); discriminate).
  assert (G : one_line m2 -> (valid_mesh ends m' /\ one_line m' /\ m_points m' <> []) /\ lenz (m_points m) <= lenz (m_points m')).
  { intros O2. destruct (IH _ _ E V2 N2 L O2) as [I1 I2]. split; [exact I1|]. rewrite P2 in I2. unfold lenz in *. rewrite app_length in I2. cbn in I2. lia. }
  destruct (Z.le_gt_cases (lenz (m_points m2)) two32) as [L2|L2].
  - apply G. unfold one_line in *. rewrite <- E2'. cbn [add_cell create_point m_cells m_points]. rewrite O, app_length. cbn [List.length].
    unfold nb_vertices in *. rewrite P2 in L2. unfold lenz in *. rewrite app_length in L2. cbn [List.length] in L2.
    assert (1 <= List.length (m_points m))%nat by (destruct (m_points m); [congruence|cbn; lia]).
    replace (List.length (m_points m) + 1 - 1)%nat with (S (List.length (m_points m) - 1)) by lia. rewrite rangez_S, map_app. cbn [map]. f_equal. f_equal.
    unfold sub32, wrap32. rewrite Z.mod_small by lia. f_equal; lia.
  - (* the points only grow *)
    exfalso. assert (M : forall ls (m m' : mesh F edge), paths_loop F crs (rx, ry, rz) ls m = Ok m' -> lenz (m_points m) <= lenz (m_points m')).
    { clear. induction ls as [|l ls IH]; intros m m' E; cbn [paths_loop] in E; [injection E as <-; lia|]. destruct (starts_with l "PATH"); [|injection E as <-; lia].
      apply bind_ok in E as [[[t0 t1] t2] [_ E]]. cbv zeta in E. apply bind_ok in E as [m2 [E2 E]]. unfold create_edge in E2. destruct (_ && _); [|discriminate]. injection E2 as <-.
      apply IH in E. cbn [add_cell create_point m_points] in E. unfold lenz in *. rewrite app_length in E. cbn in E. lia. }
    apply M in E. lia.
Qed.
Theorem C118_wl : forall (F : Num) text m, read_wl F text = Ok m -> lenz (m_points m) <= two32 -> valid_mesh ends m /\ one_line m /\ m_points m <> [].
Proof.
  intros F text m E L. unfold read_wl in E. destruct (goto_if _ _) as [[l|] s]; [|discriminate]. apply bind_ok in E as [[name s1] [_ E]]. cbv zeta in E. apply bind_ok in E as [[crs s2] [_ E]].
  apply bind_ok in E as [[ref s3] [_ E]]. apply bind_ok in E as [[x s4] [_ E]]. apply paths_line in E; [apply E|apply point_valid, named_valid, empty_valid|destruct name; discriminate|exact L|].
  destruct name; reflexivity.
Qed.
Print Assumptions C118_wl.

(** ** Voxets *)
Theorem C118_voxet : forall (F : Num) dist divn files folder text m, read_vo F dist divn files folder text = Ok m ->
  valid_attrs (Z.to_nat (nb_cells (v_n F m))) (v_attrs F m).
Proof.
  intros F dist divn files folder text m E. unfold read_vo in E. destruct (goto_if _ _) as [[l|] s]; [|discriminate]. apply bind_ok in E as [[name s1] [_ E]]. apply bind_ok in E as [[crs s2] [_ E]].
  apply bind_ok in E as [[m0 s3] [E0 E]].
  assert (H0 : v_attrs F m0 = []).
  { unfold initialize_grid in E0. do 8 (apply bind_ok in E0 as [? [_ E0]]; repeat match type of E0 with (let '(_, _) := ?v in _) = _ => destruct v end). 
    apply bind_ok in E0 as [[[[nx ny] nz] s9] [_ E0]]. now injection E0 as <- _. }
  unfold read_data_file in E. destruct (get_data_file s3) as [[nm|] s4]; [|discriminate]. destruct (files _) as [data|]; [|discriminate]. cbv zeta in E. destruct (Nat.ltb _ _); [discriminate|].
  set (names := skipn 4 _) in E. apply (foldM_keeps _ (fun m => valid_attrs (Z.to_nat (nb_cells (v_n F m))) (v_attrs F m))) in E; [exact E| |].
  - clear. intros m l m' H E. unfold vo_row in E. cbv zeta in E. do 7 (apply bind_ok in E as [? [_ E]]). revert E. set (cell := cell_index _ _). clearbody cell. intros E.
    apply (foldM_keeps _ (fun m => valid_attrs (Z.to_nat (nb_cells (v_n F m))) (v_attrs F m))) in E; [exact E| |exact H]. clear - F. intros m [a n] m' H E.
    apply bind_ok in E as [t [_ E]]. apply bind_ok in E as [x [_ E]]. unfold vo_set in E. destruct (find_attr n (v_attrs F m)) as [b|] eqn:Ef; [|discriminate]. apply bind_ok in E as [vals [Es E]].
    injection E as <-. cbn [v_attrs v_n]. apply replace_valid; [exact H|]. cbn [a_vals]. unfold setz in Es. destruct (_ && _); [|discriminate]. injection Es as <-. rewrite upd_length.
    apply find_attr_in in Ef as [n' Ef]. destruct H as [_ H]. now apply (H n').
  - assert (G : forall names m, valid_attrs (Z.to_nat (nb_cells (v_n F m))) (v_attrs F m) ->
      valid_attrs (Z.to_nat (nb_cells (v_n F (fold_left (vo_attribute F) names m)))) (v_attrs F (fold_left (vo_attribute F) names m))).
    { clear. induction names as [|n names IH]; intros m H; [exact H|]. cbn [fold_left]. apply IH. unfold vo_attribute. destruct (find_attr n (v_attrs F m)); [exact H|].
      cbn [v_attrs v_n]. apply replace_valid; [exact H|]. cbn [a_vals]. apply repeat_length. }
    apply G. rewrite H0. split; [constructor|intros x a []].
Qed.
Print Assumptions C118_voxet.

(** Files that are loaded: a surface with properties, a well of each kind, a voxet. *)
Example C118_example : (exists m, read_ts ExNum (unlines ex_file) = Ok m /\ List.length (m_points m) = 4%nat /\ List.length (m_cells m) = 2%nat /\ map fst (m_attrs m) = [lit "porosity"; lit "slope"]) /\
  (exists m, read_wl ExNum (unlines ex_wl) = Ok m /\ lenz (m_points m) = 3) /\
  (exists m, read_dev ExNum (unlines (ex_dev ["1 2 3 4 5"; "10 20 30 40 50"])) = Ok m /\ lenz (m_points m) = 2 /\ map fst (m_attrs m) = [lit "MD"; lit "GR"]) /\
  (exists m, ex_read "AXIS_U 4 0 0" "AXIS_V 0 9 0" "AXIS_N 2 3 1" ["0 0 0 1 2"; "1 2 0 3 4"] = Ok m /\ nb_cells (v_n ExNum m) = 6 /\ map fst (v_attrs ExNum m) = [lit "por"; lit "perm"]).
Proof.
  split; [|split; [|split]].
  - destruct (mesh_is_ok _ _ _ _ _ _ zzz_eqb_ok C102_example_cells) as (m & E & _ & P & Q & A). exists m. split; [exact E|]. split; [exact (f_equal (@List.length _) P)|]. split; [exact (f_equal (@List.length _) Q)|].
    assert (M : map fst (attrs_of m) = map fst (m_attrs m)) by (unfold attrs_of; rewrite map_map; reflexivity). exact (eq_trans (eq_sym M) (f_equal (map fst) A)).
  - destruct (mesh_is_ok _ _ _ _ _ _ zz_eqb_ok C19_instance) as (m & E & _ & P & _). exists m. split; [exact E|]. exact (f_equal lenz P).
  - destruct (mesh_is_ok _ _ _ _ _ _ zz_eqb_ok C21_instance) as (m & E & _ & P & _ & A). exists m. split; [exact E|]. split; [exact (f_equal lenz P)|].
    assert (M : map fst (attrs_of m) = map fst (m_attrs m)) by (unfold attrs_of; rewrite map_map; reflexivity). exact (eq_trans (eq_sym M) (f_equal (map fst) A)).
  - assert (H : match ex_read "AXIS_U 4 0 0" "AXIS_V 0 9 0" "AXIS_N 2 3 1" ["0 0 0 1 2"; "1 2 0 3 4"] with
      | Ok m => (nb_cells (v_n ExNum m) =? 6) && leqb beq (map fst (v_attrs ExNum m)) [lit "por"; lit "perm"] | _ => false end = true) by (vm_compute; reflexivity).
    destruct (ex_read _ _ _ _) as [m| | |]; try discriminate. exists m. split; [reflexivity|]. apply andb_true_iff in H as [H1 H2]. apply Z.eqb_eq in H1.
    split; [exact H1|]. apply (leqb_ok beq) in H2; [exact H2|]. intros x y B. now apply beq_eq in B.
Qed.
