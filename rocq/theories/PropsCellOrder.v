(** * The order of the triangles of a GOCAD surface and of the segments of a GOCAD curve (C162). *)
From Coq Require Import ZArith List Lia Bool Ascii String Permutation.
From Verif Require Import Base Text TextFacts GocadModel MeshModel TsModel Spec GocadFacts StreamFacts Grammar GrammarFacts DepthFacts MultiFacts MultiMore PropsPropsOnly PropsDataLines.
From Verif Require Import ExNum ExCheck PropsTsVs.
Import ListNotations.
Local Open Scope string_scope.
Local Open Scope list_scope.
Local Open Scope Z_scope.

(** ** Specification *)
Definition triangle_line (l : bytes) : Prop := exists ws, string_split l = lit "TRGL" :: ws.
(** Two texts whose first surface has the same lines, but for the order of consecutive triangles. *)
Definition other_order (F : Num) (text text' : bytes) : Prop :=
  exists a ps mid k d t t' rest, same_start "GOCAD TSurf" text text' (a ++ mid ++ k :: d ++ t ++ rest) (a ++ mid ++ k :: d ++ t' ++ rest) /\
    prefixed_properties F [] a ps /\ (a = [] -> not_next "PROPERTIES" (mid ++ [k])) /\
    Forall (starts_not "TFACE") mid /\ starts "TFACE" k /\ Forall (fun l => forall ws, string_split l <> lit "END" :: ws) d /\
    Forall triangle_line t /\ Permutation t t'.
(** Same for the consecutive segments of the first curve. *)
Definition segment_line (l : bytes) : Prop := exists ws, string_split l = lit "SEG" :: ws.
Definition other_segment_order (text text' : bytes) : Prop :=
  exists mid k d t t' rest, same_start "GOCAD PLine" text text' (mid ++ k :: d ++ t ++ rest) (mid ++ k :: d ++ t' ++ rest) /\
    Forall (starts_not "ILINE") mid /\ starts "ILINE" k /\ Forall (fun l => forall ws, string_split l <> lit "END" :: ws) d /\
    Forall segment_line t /\ Permutation t t'.
(** The same mesh but for the order of its cells. *)
Definition same_but_order {F C} (m m' : mesh F C) : Prop :=
  m_name m' = m_name m /\ m_points m' = m_points m /\ m_attrs m' = m_attrs m /\ Permutation (m_cells m) (m_cells m').

(** ** Facts *)
Section Facts.
Context {F : Num}.
Definition R (ts us : TSurf F) : Prop :=
  t_offset us = t_offset ts /\ t_name us = t_name ts /\ t_crs us = t_crs ts /\ t_props us = t_props ts /\ t_points us = t_points ts /\
  t_values us = t_values ts /\ Permutation (t_triangles ts) (t_triangles us).
Lemma R_refl ts : R ts ts.
Proof. repeat split. apply Permutation_refl. Qed.
Lemma R_trans a b c : R a b -> R b c -> R a c.
Proof. unfold R. intros (A1 & A2 & A3 & A4 & A5 & A6 & A7) (B1 & B2 & B3 & B4 & B5 & B6 & B7). repeat split; try congruence. now apply Permutation_trans with (t_triangles b). Qed.
Lemma line_R ts us l ts' st : R ts us -> tface_line F ts l = Ok (ts', st) -> exists us', tface_line F us l = Ok (us', st) /\ R ts' us'.
Proof.
  destruct ts as [o n d h pts tris tro vo bst bor vals], us as [o' n' d' h' pts' tris' tro' vo' bst' bor' vals'].
  unfold R. cbn. intros (-> & -> & -> & -> & -> & -> & P). unfold tface_line. cbv zeta. intros H. apply bind_ok in H as [k [-> H]]. cbn [bind].
  repeat match goal with
  | H : (if ?c then _ else _) = Ok _ |- _ => destruct c
  | H : bind _ _ = Ok _ |- _ => apply bind_ok in H as [? [-> H]]; cbn [bind]
  end; injection H as <- <-; eexists; (split; [reflexivity|]); cbn; repeat split; try assumption; now apply Permutation_app_tail.
Qed.
Lemma loop_R ls : forall ts us ts' r, R ts us -> tfaces_loop F ts ls = Ok (ts', r) -> exists us', tfaces_loop F us ls = Ok (us', r) /\ R ts' us'.
Proof.
  induction ls as [|l q IH]; intros ts us ts' r E H; [discriminate|]. cbn [tfaces_loop] in *. apply bind_ok in H as [[t1 st] [H1 H]].
  destruct (line_R _ _ _ _ _ E H1) as (u1 & -> & E1). cbn [bind]. destruct st; [|now apply (IH t1)]. injection H as <- <-. eauto.
Qed.
Definition add_tri (t : tri) (ts : TSurf F) : TSurf F :=
  mkTSurf (t_offset ts) (t_name ts) (t_crs ts) (t_props ts) (t_points ts) (t_triangles ts ++ [t]) (t_tri_off ts) (t_vert_off ts) (t_bstones ts) (t_borders ts) (t_values ts).
Lemma triangle_step l ts ts' st : triangle_line l -> tface_line F ts l = Ok (ts', st) ->
  st = false /\ exists t, forall us, t_offset us = t_offset ts -> tface_line F us l = Ok (add_tri t us, false).
Proof.
  intros (ws & E) H. unfold tface_line in *. cbv zeta in *. rewrite E in *. cbn [front bind] in *. destruct ts as [o n d h pts tris tro vo bst bor vals].
  change (is_vrtx (lit "TRGL")) with false in *. change (is_atom (lit "TRGL")) with false in *. change (beq (lit "TRGL") (lit "TRGL")) with true in *. cbv iota in *.
  apply bind_ok in H as [x [Hx H]]. apply bind_ok in H as [y [Hy H]]. apply bind_ok in H as [z [Hz H]]. injection H as _ <-. split; [reflexivity|].
  exists (x, y, z). intros [o' n' d' h' pts' tris' tro' vo' bst' bor' vals']. cbn [t_offset]. intros ->. rewrite Hx. cbn [bind]. rewrite Hy. cbn [bind]. rewrite Hz. reflexivity.
Qed.
Lemma loop_order t t' : Permutation t t' -> Forall triangle_line t -> forall rest ts us ts' r, R ts us ->
  tfaces_loop F ts (t ++ rest) = Ok (ts', r) -> exists us', tfaces_loop F us (t' ++ rest) = Ok (us', r) /\ R ts' us'.
Proof.
  induction 1 as [|l t t' _ IH|x y t|t t1 t' P1 IH1 _ IH2]; intros T rest ts us ts' r E H.
  - now apply (loop_R rest ts).
  - inversion T as [|? ? Tl Tt]; subst. cbn [app tfaces_loop] in *. apply bind_ok in H as [[t1 st] [H1 H]].
    destruct (triangle_step _ _ _ _ Tl H1) as [-> _]. destruct (line_R _ _ _ _ _ E H1) as (u1 & -> & E1). cbn [bind]. now apply (IH Tt rest t1).
  - inversion T as [|? ? Ty T1]; subst. inversion T1 as [|? ? Tx _]; subst. cbn [app tfaces_loop] in *. apply bind_ok in H as [[t1 st] [H1 H]].
    destruct (triangle_step _ _ _ _ Ty H1) as [-> (b & B)]. rewrite (B ts eq_refl) in H1. injection H1 as <-. cbn [app tfaces_loop] in H. apply bind_ok in H as [[t2 st] [H2 H]].
    destruct (triangle_step _ _ _ _ Tx H2) as [-> (c & Cc)]. rewrite (Cc _ eq_refl) in H2. injection H2 as <-.
    assert (O : t_offset us = t_offset ts) by apply E. rewrite (Cc us O). cbn [bind]. rewrite (B (add_tri c us) O). cbn [bind].
    apply (loop_R _ _ _ _ _) with (2 := H). destruct E as (E1 & E2 & E3 & E4 & E5 & E6 & E7). repeat split; try assumption. cbn [add_tri t_triangles].
    rewrite <- !app_assoc. apply Permutation_app; [assumption|]. cbn. apply perm_swap.
  - destruct (IH1 T rest ts us ts' r E H) as (u1 & H1 & E1). destruct (IH2 (Permutation_Forall P1 T) rest us us u1 r (R_refl us) H1) as (u2 & H2 & E2).
    exists u2. split; [assumption|]. now apply R_trans with u1.
Qed.
Lemma loop_before d t t' rest : Forall (fun l => forall ws, string_split l <> lit "END" :: ws) d -> Forall triangle_line t -> Permutation t t' ->
  forall ts us ts' r, R ts us -> tfaces_loop F ts (d ++ t ++ rest) = Ok (ts', r) -> exists us', tfaces_loop F us (d ++ t' ++ rest) = Ok (us', r) /\ R ts' us'.
Proof.
  intros D T P. induction D as [|l d N _ IH]; intros ts us ts' r E H; [now apply (loop_order t t' P T rest ts)|]. cbn [app tfaces_loop] in *.
  apply bind_ok in H as [[t1 st] [H1 H]]. pose proof (tface_stop _ _ _ _ N H1) as ->. destruct (line_R _ _ _ _ _ E H1) as (u1 & -> & E1). cbn [bind]. now apply (IH t1).
Qed.
Lemma points_order {C} ps : forall m m' : mesh F C, same_but_order m m' -> same_but_order (create_points ps m) (create_points ps m').
Proof.
  induction ps as [|p ps IH]; intros m m' H; [exact H|]. cbn [create_points fold_left]. apply IH. destruct H as (H1 & H2 & H3 & H4).
  unfold same_but_order, create_point. cbn. rewrite H1, H2, H3. auto.
Qed.
Lemma attributes_order ns : forall es ds (vs : list (list (num F))) nb mp (m m' x : mesh F tri), same_but_order m m' ->
  create_attributes_loop ns es ds vs nb mp m = Ok x -> exists x', create_attributes_loop ns es ds vs nb mp m' = Ok x' /\ same_but_order x x'.
Proof.
  induction ns as [|n ns IH]; intros es ds vs nb mp m m' x E H; cbn [create_attributes_loop] in *; [injection H as <-; eauto|].
  destruct es as [|e es]; [discriminate|]. destruct ds as [|d ds]; [discriminate|]. destruct vs as [|v vs]; [discriminate|]. cbv zeta in *.
  apply bind_ok in H as [a [Ha H]]. apply bind_ok in H as [w [Hw H]]. destruct E as (E1 & E2 & E3 & E4).
  assert (Q : find_or_create m' n e (repeat d (Z.to_nat e)) = Ok a) by (unfold find_or_create in *; now rewrite E2, E3).
  rewrite Q. cbn [bind]. rewrite Hw. cbn [bind]. apply (IH _ _ _ _ _ _ _ _) with (2 := H). unfold same_but_order, set_attr_list. cbn. rewrite E1, E2, E3. auto.
Qed.
Lemma build_order (m m' x : mesh F tri) ts us : same_but_order m m' -> R ts us -> build_surface m ts = Ok x -> exists x', build_surface m' us = Ok x' /\ same_but_order x x'.
Proof.
  intros E (R1 & R2 & R3 & R4 & R5 & R6 & R7) H. unfold build_surface in *. cbv zeta in *. rewrite R2, R4, R5, R6.
  assert (E0 : same_but_order (set_name (t_name ts) m) (set_name (t_name ts) m')).
  { destruct (t_name ts); [|exact E]. destruct E as (E1 & E2 & E3 & E4). unfold same_but_order. cbn. auto. }
  pose proof (points_order (t_points ts) _ _ E0) as (E1 & E2 & E3 & E4).
  assert (V : nb_vertices m' = nb_vertices m) by (unfold nb_vertices; destruct E as (_ & -> & _); reflexivity). rewrite V.
  set (m1 := create_points (t_points ts) (set_name (t_name ts) m)) in *. set (m1' := create_points (t_points ts) (set_name (t_name ts) m')) in *. apply bind_ok in H as [m2 [H2 H]].
  set (sh := fun q : list tri => if nb_vertices m =? 0 then q else map (shift_tri (nb_vertices m)) q).
  change (foldM create_triangle (sh (t_triangles ts)) m1 = Ok m2) in H2.
  change (exists x', bind (foldM create_triangle (sh (t_triangles us)) m1') (fun m2' => create_attributes (t_props ts) (t_values ts) (List.length (t_points ts)) (seq 0 (List.length (t_points ts))) m2') = Ok x' /\ same_but_order x x').
  assert (L : Permutation (sh (t_triangles ts)) (sh (t_triangles us))) by (unfold sh; destruct (_ =? _); [assumption|now apply Permutation_map]).
  apply create_triangles_fields in H2 as (A1 & A2 & A3 & A4 & A5).
  assert (V1 : nb_vertices m1' = nb_vertices m1) by (unfold nb_vertices; now rewrite E2).
  destruct (create_triangles_ok _ (sh (t_triangles us)) m1') as [m2' H2']; [rewrite V1; now apply (Permutation_Forall L)|]. rewrite H2'. cbn [bind].
  apply create_triangles_fields in H2' as (B1 & B2 & B3 & B4 & _). apply (attributes_order _ _ _ _ _ _ _ _ _) with (2 := H).
  unfold same_but_order. rewrite A1, A2, A3, A4, B1, B2, B3, B4. repeat split; try assumption. now apply Permutation_app.
Qed.
Lemma read_order f : forall (m m' x : mesh F tri) s, same_but_order m m' -> read_ts_loop f m s = Ok x -> exists x', read_ts_loop f m' s = Ok x' /\ same_but_order x x'.
Proof.
  induction f as [|f IH]; intros m m' x s E H; [discriminate|]. cbn [read_ts_loop] in *. apply bind_ok in H as [[o s1] [-> H]]. cbn [bind].
  destruct o as [ts|]; [|injection H as <-; eauto]. apply bind_ok in H as [m1 [H1 H]].
  destruct (build_order _ _ _ _ _ E (R_refl ts) H1) as (m1' & -> & E1). cbn [bind]. now apply (IH m1).
Qed.

(** Curves. *)
Definition Q (a b : ECurve F) : Prop :=
  e_offset b = e_offset a /\ e_name b = e_name a /\ e_crs b = e_crs a /\ e_points b = e_points a /\ Permutation (e_edges a) (e_edges b).
Lemma Q_refl a : Q a a.
Proof. repeat split. apply Permutation_refl. Qed.
Lemma Q_trans a b c : Q a b -> Q b c -> Q a c.
Proof. unfold Q. intros (A1 & A2 & A3 & A4 & A5) (B1 & B2 & B3 & B4 & B5). repeat split; try congruence. now apply Permutation_trans with (e_edges b). Qed.
Lemma line_Q a b l a' st : Q a b -> iline_line F a l = Ok (a', st) -> exists b', iline_line F b l = Ok (b', st) /\ Q a' b'.
Proof.
  destruct a as [o n c pts es], b as [o' n' c' pts' es']. unfold Q. cbn. intros (-> & -> & -> & -> & P). unfold iline_line. cbv zeta.
  intros H. apply bind_ok in H as [k [-> H]]. cbn [bind].
  repeat match goal with
  | H : (if ?c then _ else _) = Ok _ |- _ => destruct c
  | H : bind _ _ = Ok _ |- _ => apply bind_ok in H as [? [-> H]]; cbn [bind]
  end; injection H as <- <-; eexists; (split; [reflexivity|]); cbn; repeat split; try assumption; now apply Permutation_app_tail.
Qed.
Lemma loop_Q ls : forall a b a' r, Q a b -> ilines_loop F a ls = Ok (a', r) -> exists b', ilines_loop F b ls = Ok (b', r) /\ Q a' b'.
Proof.
  induction ls as [|l q IH]; intros a b a' r E H; cbn [ilines_loop] in *; [injection H as <- <-; eauto|]. apply bind_ok in H as [[t1 st] [H1 H]].
  destruct (line_Q _ _ _ _ _ E H1) as (u1 & -> & E1). cbn [bind]. destruct st; [|now apply (IH t1)]. injection H as <- <-. eauto.
Qed.
Definition add_edge (e : edge) (a : ECurve F) : ECurve F := mkECurve (e_offset a) (e_name a) (e_crs a) (e_points a) (e_edges a ++ [e]).
Lemma segment_step l a a' st : segment_line l -> iline_line F a l = Ok (a', st) ->
  st = false /\ exists e, forall b, e_offset b = e_offset a -> iline_line F b l = Ok (add_edge e b, false).
Proof.
  intros (ws & E) H. unfold iline_line in *. cbv zeta in *. rewrite E in *. cbn [front bind] in *. destruct a as [o n c pts es].
  change (is_vrtx (lit "SEG")) with false in *. change (beq (lit "SEG") (lit "SEG")) with true in *. cbv iota in *.
  apply bind_ok in H as [x [Hx H]]. apply bind_ok in H as [y [Hy H]]. injection H as _ <-. split; [reflexivity|].
  exists (x, y). intros [o' n' c' pts' es']. cbn [e_offset]. intros ->. rewrite Hx. cbn [bind]. rewrite Hy. reflexivity.
Qed.
Lemma segments_order t t' : Permutation t t' -> Forall segment_line t -> forall rest a b a' r, Q a b ->
  ilines_loop F a (t ++ rest) = Ok (a', r) -> exists b', ilines_loop F b (t' ++ rest) = Ok (b', r) /\ Q a' b'.
Proof.
  induction 1 as [|l t t' _ IH|x y t|t t1 t' P1 IH1 _ IH2]; intros T rest a b a' r E H.
  - now apply (loop_Q rest a).
  - inversion T as [|? ? Tl Tt]; subst. cbn [app ilines_loop] in *. apply bind_ok in H as [[t1 st] [H1 H]].
    destruct (segment_step _ _ _ _ Tl H1) as [-> _]. destruct (line_Q _ _ _ _ _ E H1) as (u1 & -> & E1). cbn [bind]. now apply (IH Tt rest t1).
  - inversion T as [|? ? Ty T1]; subst. inversion T1 as [|? ? Tx _]; subst. cbn [app ilines_loop] in *. apply bind_ok in H as [[t1 st] [H1 H]].
    destruct (segment_step _ _ _ _ Ty H1) as [-> (v & B)]. rewrite (B a eq_refl) in H1. injection H1 as <-. cbn [app ilines_loop] in H. apply bind_ok in H as [[t2 st] [H2 H]].
    destruct (segment_step _ _ _ _ Tx H2) as [-> (c & Cc)]. rewrite (Cc _ eq_refl) in H2. injection H2 as <-.
    assert (O : e_offset b = e_offset a) by apply E. rewrite (Cc b O). cbn [bind]. rewrite (B (add_edge c b) O). cbn [bind].
    apply (loop_Q _ _ _ _ _) with (2 := H). destruct E as (E1 & E2 & E3 & E4 & E5). repeat split; try assumption. cbn [add_edge e_edges].
    rewrite <- !app_assoc. apply Permutation_app; [assumption|]. cbn. apply perm_swap.
  - destruct (IH1 T rest a b a' r E H) as (u1 & H1 & E1). destruct (IH2 (Permutation_Forall P1 T) rest b b u1 r (Q_refl b) H1) as (u2 & H2 & E2).
    exists u2. split; [assumption|]. now apply Q_trans with u1.
Qed.
Lemma iline_stop (a a' : ECurve F) l st : (forall ws, string_split l <> lit "END" :: ws) -> iline_line F a l = Ok (a', st) -> st = false.
Proof.
  intros N E. unfold iline_line in E. cbv zeta in E. destruct (string_split l) as [|k ws]; [discriminate|].
  cbn [front bind] in E. destruct a as [o n c pts es]. destruct (beq k "END") eqn:B; [apply beq_eq in B; subst; now elim (N ws)|].
  repeat match goal with
  | H : (if ?c then _ else _) = Ok _ |- _ => destruct c
  | H : bind _ _ = Ok _ |- _ => apply bind_ok in H as [? [_ H]]
  | H : Ok _ = Ok _ |- _ => injection H; congruence
  end.
Qed.
Lemma segments_before d t t' rest : Forall (fun l => forall ws, string_split l <> lit "END" :: ws) d -> Forall segment_line t -> Permutation t t' ->
  forall a b a' r, Q a b -> ilines_loop F a (d ++ t ++ rest) = Ok (a', r) -> exists b', ilines_loop F b (d ++ t' ++ rest) = Ok (b', r) /\ Q a' b'.
Proof.
  intros D T P. induction D as [|l d N _ IH]; intros a b a' r E H; [now apply (segments_order t t' P T rest a)|]. cbn [app ilines_loop] in *.
  apply bind_ok in H as [[t1 st] [H1 H]]. pose proof (iline_stop _ _ _ _ N H1) as ->. destruct (line_Q _ _ _ _ _ E H1) as (u1 & -> & E1). cbn [bind]. now apply (IH t1).
Qed.
Lemma curve_order (m m' x : mesh F edge) a b : same_but_order m m' -> Q a b -> build_curve m a = Ok x -> exists x', build_curve m' b = Ok x' /\ same_but_order x x'.
Proof.
  intros E (R1 & R2 & R3 & R4 & R5) H. unfold build_curve in *. cbv zeta in *. rewrite R2, R4.
  assert (E0 : same_but_order (set_name (e_name a) m) (set_name (e_name a) m')).
  { destruct (e_name a); [|exact E]. destruct E as (E1 & E2 & E3 & E4). unfold same_but_order. cbn. auto. }
  pose proof (points_order (e_points a) _ _ E0) as (E1 & E2 & E3 & E4).
  assert (V : nb_vertices m' = nb_vertices m) by (unfold nb_vertices; destruct E as (_ & -> & _); reflexivity). rewrite V.
  set (m1 := create_points (e_points a) (set_name (e_name a) m)) in *. set (m1' := create_points (e_points a) (set_name (e_name a) m')) in *.
  set (g := fun e : edge => (add32 (fst e) (nb_vertices m), add32 (snd e) (nb_vertices m)) : edge).
  change (foldM create_edge (map g (e_edges a)) m1 = Ok x) in H. change (exists x', foldM create_edge (map g (e_edges b)) m1' = Ok x' /\ same_but_order x x').
  pose proof (Permutation_map g R5) as L. apply create_edges_fields in H as (A1 & A2 & A3 & A4 & A5).
  assert (V1 : nb_vertices m1' = nb_vertices m1) by (unfold nb_vertices; now rewrite E2).
  destruct (MultiMore.create_edges_ok _ (map g (e_edges b)) m1') as [x' H']; [rewrite V1; now apply (Permutation_Forall L)|]. exists x'. split; [exact H'|].
  apply create_edges_fields in H' as (B1 & B2 & B3 & B4 & _).
  unfold same_but_order. rewrite A1, A2, A3, A4, B1, B2, B3, B4. repeat split; try assumption. now apply Permutation_app.
Qed.
Lemma read_curve_order f : forall (m m' x : mesh F edge) s, same_but_order m m' -> read_pl_loop f m s = Ok x -> exists x', read_pl_loop f m' s = Ok x' /\ same_but_order x x'.
Proof.
  induction f as [|f IH]; intros m m' x s E H; [discriminate|]. cbn [read_pl_loop] in *. apply bind_ok in H as [[o s1] [-> H]]. cbn [bind].
  destruct o as [a|]; [|injection H as <-; eauto]. apply bind_ok in H as [m1 [H1 H]].
  destruct (curve_order _ _ _ _ _ E (Q_refl a) H1) as (m1' & -> & E1). cbn [bind]. now apply (IH m1).
Qed.
End Facts.

(** ** C162 *)
(** If a surface is loaded, then with its triangles in another order it is loaded too: same name, vertices and values, and the same triangles, each as many times. *)
Theorem C162_triangle_order (F : Num) text text' m : other_order F text text' -> read_ts F text = Ok m ->
  exists m', read_ts F text' = Ok m' /\ same_but_order m m'.
Proof.
  intros (a & ps & mid & k & d & t & t' & rest & S1 & P & Np & M & Ok1 & D & T & Pt) H0.
  set (N := (List.length (pending (open_text text)) + List.length (pending (open_text text')))%nat).
  assert (AN : forall (a : list bytes) mid k r, a ++ mid ++ k :: r <> []) by (intros [|x a'] [|y mid'] k' r; discriminate).
  destruct (start_step _ _ _ _ _ S1 (AN _ _ _ _) (AN _ _ _ _)) as (first & name & c & s & s' & u & u' & n & G & G' & Eh & Eh' & Ec & Ec').
  assert (D1 : both_declare F [] a a (mid ++ k :: d ++ t ++ rest) (mid ++ k :: d ++ t' ++ rest)).
  { exists ps. repeat split; try assumption; try (intros e; apply not_next_cons; now apply Np); apply (AN []). }
  destruct (declare_step [] a a _ _ n D1) as (h & h' & Ep & Ep' & Es).
  (* the text [text] read with the declarations of [text'] *)
  revert H0. unfold read_ts. cbv zeta.
  rewrite (read_ts_loop_fuel F (S (List.length (pending (open_text text')))) (S N)) by (unfold N; lia).
  rewrite (read_ts_loop_fuel F (S (List.length (pending (open_text text)))) (S N)) by (unfold N; lia). cbn [read_ts_loop].
  unfold read_tsurf. rewrite G, G', Eh, Eh'. cbn [bind]. rewrite Ec, Ec'. cbn [bind]. rewrite Ep, Ep'. cbn [bind].
  unfold read_tfaces. rewrite !(goto_keyword_hit "TFACE" mid k _ n M Ok1). cbn [bind pending nl]. rewrite !bind_assoc.
  match goal with |- bind (tfaces_loop F ?x ?ls) ?K = _ -> exists m', bind (tfaces_loop F ?y _) _ = _ /\ _ =>
    assert (X : bind (tfaces_loop F x ls) K = bind (tfaces_loop F y ls) K) end.
  { apply (strip_bind strip_ts); [intros ts r; reflexivity|]. rewrite <- !tfaces_loop_strip. f_equal. unfold strip_ts. cbn. rewrite Es. f_equal. now injection Es as -> _ _. }
  rewrite X. intros H0. apply bind_ok in H0 as [[ts r] [H1 H0]].
  destruct (loop_before d t t' rest D T Pt _ _ _ _ (R_refl _) H1) as (us & -> & E). cbn [bind] in *.
  apply bind_ok in H0 as [m1 [H2 H0]]. assert (Z0 : @same_but_order F tri empty_mesh empty_mesh) by (repeat split; constructor).
  destruct (build_order _ _ _ _ _ Z0 E H2) as (m1' & -> & E1). cbn [bind]. now apply (read_order N m1).
Qed.
Print Assumptions C162_triangle_order.
Theorem C162_segment_order (F : Num) text text' m : other_segment_order text text' -> read_pl F text = Ok m ->
  exists m', read_pl F text' = Ok m' /\ same_but_order m m'.
Proof.
  intros (mid & k & d & t & t' & rest & S1 & M & Ok1 & D & T & Pt) H0.
  set (N := (List.length (pending (open_text text)) + List.length (pending (open_text text')))%nat).
  assert (AN : forall mid (k : bytes) r, mid ++ k :: r <> []) by (intros [|y mid'] k' r; discriminate).
  destruct (start_step _ _ _ _ _ S1 (AN _ _ _) (AN _ _ _)) as (first & name & c & s & s' & u & u' & n & G & G' & Eh & Eh' & Ec & Ec').
  revert H0. unfold read_pl. cbv zeta.
  rewrite (read_pl_loop_fuel F (S (List.length (pending (open_text text')))) (S N)) by (unfold N; lia).
  rewrite (read_pl_loop_fuel F (S (List.length (pending (open_text text)))) (S N)) by (unfold N; lia). cbn [read_pl_loop].
  unfold read_ecurve. rewrite G, G', Eh, Eh'. cbn [bind]. rewrite Ec, Ec'. cbn [bind].
  unfold read_ilines. rewrite !(goto_keyword_hit "ILINE" mid k _ n M Ok1). cbn [bind pending nl]. rewrite !bind_assoc.
  intros H0. apply bind_ok in H0 as [[ts r] [H1 H0]].
  destruct (segments_before d t t' rest D T Pt _ _ _ _ (Q_refl _) H1) as (us & -> & E). cbn [bind] in *.
  apply bind_ok in H0 as [m1 [H2 H0]]. assert (Z0 : @same_but_order F edge empty_mesh empty_mesh) by (repeat split; constructor).
  destruct (curve_order _ _ _ _ _ Z0 E H2) as (m1' & -> & E1). cbn [bind]. now apply (read_curve_order N m1).
Qed.
Print Assumptions C162_segment_order.

(** ** What does not hold *)
Definition co_surface (vs ts : list string) : bytes := unlines (map lit (["GOCAD TSurf 1"; "HEADER {"; "name:s"; "}"; "TFACE"] ++ vs ++ ts ++ ["END"])%list).
(** The vertices have numbers, but their order counts: with the lines of vertices 3 and 4 swapped, the triangle 1 2 3 joins the position of vertex 4. *)
Theorem C162_vertex_order_refuted :
  mesh_is zzz_eqb (read_ts ExNum (co_surface ["VRTX 1 0 0 5"; "VRTX 2 1 0 6"; "VRTX 3 0 1 7"; "VRTX 4 1 1 8"] ["TRGL 1 2 3"]))
    (Some (lit "s")) [(0, 0, 5); (1, 0, 6); (0, 1, 7); (1, 1, 8)] [(0, 1, 2)] [] = true /\
  mesh_is zzz_eqb (read_ts ExNum (co_surface ["VRTX 1 0 0 5"; "VRTX 2 1 0 6"; "VRTX 4 1 1 8"; "VRTX 3 0 1 7"] ["TRGL 1 2 3"]))
    (Some (lit "s")) [(0, 0, 5); (1, 0, 6); (1, 1, 8); (0, 1, 7)] [(0, 1, 2)] [] = true.
Proof. split; vm_compute; reflexivity. Qed.
Print Assumptions C162_vertex_order_refuted.

(** ** Instance: two triangles swapped. *)
Example C162_case : let vs := ["VRTX 1 0 0 5"; "VRTX 2 1 0 6"; "VRTX 3 0 1 7"; "VRTX 4 1 1 8"]%string in
  let text := co_surface vs ["TRGL 1 2 3"; "TRGL 2 3 4"] in let text' := co_surface vs ["TRGL 2 3 4"; "TRGL 1 2 3"] in
  other_order ExNum text text' /\
  mesh_is zzz_eqb (read_ts ExNum text) (Some (lit "s")) [(0, 0, 5); (1, 0, 6); (0, 1, 7); (1, 1, 8)] [(0, 1, 2); (1, 2, 3)] [] = true /\
  mesh_is zzz_eqb (read_ts ExNum text') (Some (lit "s")) [(0, 0, 5); (1, 0, 6); (0, 1, 7); (1, 1, 8)] [(1, 2, 3); (0, 1, 2)] [] = true.
Proof.
  cbv zeta. split; [|split; vm_compute; reflexivity].
  exists [], [], [], (lit "TFACE"), (map lit ["VRTX 1 0 0 5"; "VRTX 2 1 0 6"; "VRTX 3 0 1 7"; "VRTX 4 1 1 8"]),
    (map lit ["TRGL 1 2 3"; "TRGL 2 3 4"]), (map lit ["TRGL 2 3 4"; "TRGL 1 2 3"]), [lit "END"].
  split; [|split; [left; now split|split; [reflexivity|split; [constructor|split; [reflexivity|split; [|split]]]]]].
  - exists [], (lit "GOCAD TSurf 1"), (map lit ["HEADER {"; "name:s"; "}"]), [], (Some (lit "s")), true.
    unfold co_surface. rewrite !open_unlines by (cbn [map app]; repeat (apply Forall_cons; [apply lineb_ok; vm_compute; reflexivity|]); constructor).
    split; [reflexivity|]. split; [reflexivity|]. split; [reflexivity|]. split; [constructor|]. split; [reflexivity|].
    split; [|split; [left; now split|intros _; split; vm_compute; reflexivity]].
    exists (lit "HEADER {"), [lit "name:s"], (lit "}"). split; [reflexivity|]. split; [reflexivity|]. split; [repeat constructor|]. split; [reflexivity|].
    right. exists [], (lit "name:s"), [], (lit "s"). repeat split; constructor.
  - cbn [map]. repeat (apply Forall_cons; [intros ws; discriminate|]). constructor.
  - cbn [map]. repeat (apply Forall_cons; [eexists; reflexivity|]). constructor.
  - apply perm_swap.
Qed.

(** Two segments of a curve swapped. *)
Definition co_curve (ss : list string) : bytes := unlines (map lit (["GOCAD PLine 1"; "HEADER {"; "name:c"; "}"; "ILINE"; "VRTX 1 0 0 5"; "VRTX 2 1 0 6"; "VRTX 3 0 1 7"] ++ ss ++ ["END"])%list).
Example C162_segment_case : let text := co_curve ["SEG 1 2"; "SEG 2 3"] in let text' := co_curve ["SEG 2 3"; "SEG 1 2"] in
  other_segment_order text text' /\
  mesh_is zz_eqb (read_pl ExNum text) (Some (lit "c")) [(0, 0, 5); (1, 0, 6); (0, 1, 7)] [(0, 1); (1, 2)] [] = true /\
  mesh_is zz_eqb (read_pl ExNum text') (Some (lit "c")) [(0, 0, 5); (1, 0, 6); (0, 1, 7)] [(1, 2); (0, 1)] [] = true.
Proof.
  cbv zeta. split; [|split; vm_compute; reflexivity].
  exists [], (lit "ILINE"), (map lit ["VRTX 1 0 0 5"; "VRTX 2 1 0 6"; "VRTX 3 0 1 7"]), (map lit ["SEG 1 2"; "SEG 2 3"]), (map lit ["SEG 2 3"; "SEG 1 2"]), [lit "END"].
  split; [|split; [constructor|split; [reflexivity|split; [|split]]]].
  - exists [], (lit "GOCAD PLine 1"), (map lit ["HEADER {"; "name:c"; "}"]), [], (Some (lit "c")), true.
    unfold co_curve. rewrite !open_unlines by (cbn [map app]; repeat (apply Forall_cons; [apply lineb_ok; vm_compute; reflexivity|]); constructor).
    split; [reflexivity|]. split; [reflexivity|]. split; [reflexivity|]. split; [constructor|]. split; [reflexivity|].
    split; [|split; [left; now split|intros _; split; vm_compute; reflexivity]].
    exists (lit "HEADER {"), [lit "name:c"], (lit "}"). split; [reflexivity|]. split; [reflexivity|]. split; [repeat constructor|]. split; [reflexivity|].
    right. exists [], (lit "name:c"), [], (lit "c"). repeat split; constructor.
  - cbn [map]. repeat (apply Forall_cons; [intros ws; discriminate|]). constructor.
  - cbn [map]. repeat (apply Forall_cons; [eexists; reflexivity|]). constructor.
  - apply perm_swap.
Qed.
