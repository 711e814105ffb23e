(** * What is loaded from the PLine file of any curve (C107). *)
From Coq Require Import ZArith List Lia Bool Ascii String Permutation.
From Verif Require Import Base Text TextFacts GocadModel MeshModel TsModel Spec GocadFacts TsFacts PlModel PlFacts PlRule PropsPl ExNum ExCheck.
Import ListNotations.
Local Open Scope string_scope.
Local Open Scope list_scope.
Local Open Scope Z_scope.

(** ** Specification *)

(** [vs]: the vertices of the curve, in the order of the vertex lines of the file.  The loaded edge [c] stands for the edge [e] of
    the saved curve.  Its first end is the vertex line of one end of [e].  Its second end is the vertex line of the other end [w],
    except when [e] closes a loop: it is then the vertex line that has the number of [w] in the curve. *)
Definition placed (es : list (Z * Z)) (around : Z -> list (nat * bool)) (vs : list Z) (c : Z * Z) (e : nat) : Prop :=
  exists v w, (nth_error es e = Some (v, w) \/ nth_error es e = Some (w, v)) /\
    0 <= fst c /\ nth_error vs (Z.to_nat (fst c)) = Some v /\ 0 <= snd c /\
    ((exists e0, closes es around e e0 w) -> snd c = w) /\
    ((forall e0, ~ closes es around e e0 w) -> nth_error vs (Z.to_nat (snd c)) = Some w).
(** The two ends of the loaded edge [c] are vertex lines of the two ends of [e]. *)
Definition kept (es : list (Z * Z)) (vs : list Z) (c : Z * Z) (e : nat) : Prop :=
  exists v w, (nth_error es e = Some (v, w) \/ nth_error es e = Some (w, v)) /\
    nth_error vs (Z.to_nat (fst c)) = Some v /\ nth_error vs (Z.to_nat (snd c)) = Some w.
(** The vertex lines of the file show, numbered from one, the vertices [vs] of the curve. *)
Definition numbers_lines {F} (m : wmesh F (Z * Z)) (ls : list bytes) (vs : list Z) : Prop :=
  List.length (filter is_vertex_line ls) = List.length vs /\
  forall i v, nth_error vs i = Some v -> exists l, nth_error (filter is_vertex_line ls) i = Some l /\ shows m (S i) v l.
(** The point of a vertex line: the point of the vertex, printed and read. *)
Definition line_of {F} (m : wmesh F (Z * Z)) (v : Z) (p' : num F * num F * num F) : Prop :=
  exists p, 0 <= v /\ nth_error (wm_points m) (Z.to_nat v) = Some p /\ reprinted F p p'.

(** ** Facts *)
Lemma create_edge_list_ub F (l : list edge) : forall (m : mesh F edge), (exists e, In e l /\ lenz (m_points m) <= snd e) ->
  foldM create_edge l m = UB.
Proof.
  induction l as [|[a b] l IH]; intros m (e & He & H); [contradiction|]. cbn [foldM]. unfold create_edge, valid_vertex, nb_vertices.
  destruct (((0 <=? a) && (a <? lenz (m_points m))) && ((0 <=? b) && (b <? lenz (m_points m))))%bool eqn:E; [|reflexivity].
  cbn [bind]. apply IH. destruct He as [<- |He].
  - exfalso. cbn [snd] in H. apply andb_true_iff in E as [_ E]. apply andb_true_iff in E as [_ E]. apply Z.ltb_lt in E. lia.
  - exists e. split; [exact He|exact H].
Qed.
Lemma Forall2_in_r {A B} (R : A -> B -> Prop) l k b : Forall2 R l k -> In b k -> exists a, In (a, b) (combine l k) /\ R a b.
Proof.
  induction 1 as [|x y l k H _ IH]; [contradiction|]. intros [<- |Ha]; [exists x; cbn; auto|]. destruct (IH Ha) as (a & Hb & Hr). exists a. cbn. auto.
Qed.
Lemma Forall2_both {A B} (R : A -> B -> Prop) l k a b : Forall2 R l k -> In (a, b) (combine l k) -> R a b.
Proof. induction 1 as [|x y l k H _ IH]; [contradiction|]. intros [E|Hi]; [now injection E as <- <-|auto]. Qed.
Lemma combine_map_in {A B C D} (f : A -> C) (g : B -> D) l k a b : In (a, b) (combine l k) -> In (f a, g b) (combine (map f l) (map g k)).
Proof.
  revert k. induction l as [|x l IH]; intros [|y k] H; try contradiction. destruct H as [E|H]; [injection E as -> ->; now left|right; now apply IH].
Qed.

(** C107.  Whatever the curve (with at least one edge), the file gives one vertex line after the other the vertices [vs], and one
    loaded edge [cs] for every edge.  All the edges come back between their two ends, except the one that closes each loop: it
    goes to the vertex line whose number is the number of the first vertex of the loop in the curve.  Loading ends
    normally exactly when these vertex lines exist, and the curve is the saved one exactly when each is the line of the first
    vertex of its loop. *)
Theorem C107_pl_rule :
  forall (F : Num) (m : wmesh F (Z * Z)) (around : Z -> list (nat * bool)),
    num_ok F -> curve_ok (wm_cells m) around (List.length (wm_points m)) -> savable m ->
    Z.of_nat (List.length (wm_points m)) < 2 ^ 32 -> wm_cells m <> [] ->
    exists ls vs cs order,
      write_pl around m = Ok (unlines ls) /\ numbers_lines m ls vs /\
      Permutation order (seq 0 (List.length (wm_cells m))) /\
      Forall2 (placed (wm_cells m) around vs) cs order /\
      (forall e0 w, first_of_loop (wm_cells m) around e0 w ->
        exists c e, In (c, e) (combine cs order) /\ closes (wm_cells m) around e e0 w /\ snd c = w) /\
      ((forall c, In c cs -> snd c < Z.of_nat (List.length vs)) ->
        exists m', read_pl F (unlines ls) = Ok m' /\ m_cells m' = cs /\ Forall2 (line_of m) vs (m_points m') /\
          m_name m' = Some (lit "edged_curve_name") /\ m_attrs m' = []) /\
      ((exists c, In c cs /\ Z.of_nat (List.length vs) <= snd c) -> read_pl F (unlines ls) = UB) /\
      (Forall2 (kept (wm_cells m) vs) cs order <->
        forall e0 w, first_of_loop (wm_cells m) around e0 w -> nth_error vs (Z.to_nat w) = Some w).
Proof.
  intros F m around HF G Hsv Hpts Hnil. change (2 ^ 32) with two32 in Hpts.
  destruct (pl_written F m around HF G Hsv) as (paths & bs & R & Hd & Hn & Hne & Hsz & Hp & _ & Hlt & Hvs & _).
  set (es := wm_cells m) in *.
  assert (Hnd : NoDup (edges_of paths)) by (apply (Permutation_NoDup (Permutation_sym Hp)), seq_NoDup).
  pose proof (blocks_rule es around _ G paths bs [] [] Hd Hn Hnd Hlt) as Hrule. cbn [app] in Hrule. rewrite app_nil_r in Hrule.
  set (V := all_vs bs) in *. set (SG := flat_map segs bs) in *.
  assert (Hbs : bs <> []).
  { intros ->. inversion Hd; subst. unfold edges_of in Hp. cbn in Hp. apply Permutation_nil in Hp. apply Hnil. now destruct es. }
  assert (Hve : forall ev, (fst ev < List.length es)%nat -> 0 <= vert es ev < lenz (wm_points m)).
  { intros [e s] He. exact (co_ends _ _ _ G e s _ (end_vert es e s He)). }
  assert (Hvf : forall ev, (fst ev < List.length es)%nat -> 0 <= vert es (flip ev) < lenz (wm_points m)) by (intros [e s] He; now apply Hve).
  assert (Hb : forall k v, 1 <= k -> nth_error V (Z.to_nat (k - 1)) = Some v -> 1 <= k <= lenz V).
  { intros k v Hk E. assert (Z.to_nat (k - 1) < List.length V)%nat by (apply nth_error_Some; congruence). unfold lenz. lia. }
  assert (Hrule2 : Forall2 (fun ab ev => (fst ev < List.length es)%nat /\ seg_rule es around V ab ev) SG (List.concat paths)).
  { clear - Hrule Hlt. induction Hrule as [|x y l k H _ IH]; constructor; inversion Hlt; subst; auto. }
  assert (H32 : Forall (fun ab => 1 <= fst ab < two32 /\ 1 <= snd ab < two32 /\ fst ab <= lenz V) SG).
  { clear - Hrule2 Hb Hvf Hsz Hpts. induction Hrule2 as [|ab ev l k [He (H1 & H2 & H3)] _ IH]; constructor; [|exact IH].
    pose proof (Hb _ _ H1 H2). split; [lia|]. split; [|lia]. destruct H3 as [[_ ->]|(_ & H3 & H4)].
    - pose proof (Hvf ev He). unfold lenz in *. rewrite add32_small by lia. lia.
    - pose proof (Hb _ _ H3 H4). lia. }
  destruct (pl_read_back F m around bs HF Hsv R Hbs Hn Hne Hsz) as (text & W & Rb).
  { eapply Forall_impl; [|exact H32]. intros ab H. cbn beta in H. tauto. }
  set (cs := map (fun ab : Z * Z => (fst ab - 1, snd ab - 1)) SG).
  assert (P : Forall2 (placed es around V) cs (edges_of paths)).
  { unfold cs, edges_of. eapply Forall2_map2; [|exact Hrule2]. intros ab ev _ [He (H1 & H2 & H3)]. cbn beta.
    exists (vert es ev), (vert es (flip ev)). cbn [fst snd]. split; [exact (ends_of_event es ev He)|]. split; [lia|]. split; [exact H2|].
    pose proof (Hvf ev He). destruct H3 as [[(e0 & Hc) H3]|(Hc & H3 & H4)].
    - rewrite H3, add32_small by (unfold lenz in *; lia). split; [lia|]. split; [intros _; lia|]. intros Hx. now apply Hx in Hc.
    - split; [lia|]. split; [intros (e0 & Hx); now apply Hc in Hx|]. intros _. exact H4. }
  assert (C : forall e0 w, first_of_loop es around e0 w -> exists c e, In (c, e) (combine cs (edges_of paths)) /\ (closes es around e e0 w /\ snd c = w) /\
    exists v, (nth_error es e = Some (v, w) \/ nth_error es e = Some (w, v)) /\ nth_error V (Z.to_nat (fst c)) = Some v).
  { intros e0 w Hf. destruct (loop_closed es around paths bs e0 w Hd Hlt Hnd Hp Hf) as (ev & Hin & Hw & Hc).
    destruct (Forall2_in_r _ _ _ ev Hrule2 Hin) as (ab & Hi & He & H1 & H2 & H3). exists (fst ab - 1, snd ab - 1), (fst ev).
    split; [unfold cs, edges_of; exact (combine_map_in (fun ab : Z * Z => (fst ab - 1, snd ab - 1)) fst SG (List.concat paths) ab ev Hi)|]. split; [split; [exact Hc|]|exists (vert es ev); split; [rewrite <- Hw; exact (ends_of_event es ev He)|exact H2]]. cbn [snd].
    destruct H3 as [[_ ->]|(Hx & _)]; [|exfalso; apply (Hx e0); now rewrite Hw].
    pose proof (Hvf ev He). rewrite add32_small by (unfold lenz in *; lia). lia. }
  assert (Hcs : Forall (fun c => 0 <= fst c < lenz V /\ 0 <= snd c) cs).
  { apply Forall_map. eapply Forall_impl; [|exact H32]. intros ab H. cbn [fst snd] in *. lia. }
  set (pts := map (fun v => rvp F (nth (Z.to_nat v) (wm_points m) (zero F, zero F, zero F))) V).
  assert (Bd : build_curve empty_mesh (pl_read_back_curve F m bs) =
    foldM create_edge cs (mkMesh (Some (lit "edged_curve_name")) pts [] [])).
  { unfold build_curve, pl_read_back_curve. cbn [e_points e_name e_edges]. fold V SG cs pts. rewrite set_name_empty, create_points_spec.
    cbn [m_name m_points m_cells m_attrs app map]. change (nb_vertices empty_mesh) with 0. f_equal.
    unfold cs. rewrite map_map. apply map_ext_in. intros ab Hab. rewrite Forall_forall in H32. specialize (H32 ab Hab). cbn [fst snd].
    now rewrite !add32_small, !Z.add_0_r by lia. }
  assert (Lp : lenz pts = lenz V) by (unfold pts, lenz; now rewrite map_length).
  destruct (pl_vertex_lines F m bs HF Hn Hne Hsz Hvs) as (_ & FL & FV). unfold write_pl in W. rewrite R in W. cbn [bind] in W. 
  assert (Inj : forall a b : bytes, Ok a = Ok b -> b = a) by congruence. apply Inj in W. subst text.
  eexists _, V, cs, (edges_of paths). split; [unfold write_pl; rewrite R; reflexivity|]. split; [exact (conj FL FV)|]. split; [exact Hp|]. split; [exact P|]. split; [intros e0 w Hf; destruct (C e0 w Hf) as (c & e & C1 & C2 & _); eauto|].
  split; [|split; [|split]].
  - intros Hr. rewrite Rb, Bd, create_edge_list.
    + eexists. split; [reflexivity|]. cbn [m_cells m_points m_name m_attrs app]. split; [reflexivity|]. split; [|split; reflexivity].
      unfold pts. clear - Hvs HF. induction V as [|v V IH]; [constructor|]. inversion Hvs as [|? ? Hv Hvs']; subst. cbn [map]. constructor; [|now apply IH].
      exists (nth (Z.to_nat v) (wm_points m) (zero F, zero F, zero F)). split; [lia|]. split; [|now apply reprinted_rvp].
      apply nth_error_nth'. unfold lenz in Hv. lia.
    + cbn [m_points]. rewrite Lp. apply Forall_forall. intros c Hc. rewrite Forall_forall in Hcs. specialize (Hcs c Hc). specialize (Hr c Hc). unfold lenz in *. lia.
  - intros (c & Hc & Hr). rewrite Rb, Bd. apply create_edge_list_ub. exists c. cbn [m_points]. rewrite Lp. auto.
  - intros K e0 w Hf. destruct (C e0 w Hf) as (c & e & Hi & (_ & Hs) & v & E2 & A2).
    pose proof (Forall2_both _ _ _ _ _ K Hi) as (v1 & w1 & E1 & A1 & B1). rewrite Hs in B1. rewrite B1. f_equal.
    assert (Ev : v1 = v) by congruence. subst v1. destruct E1 as [E1|E1], E2 as [E2|E2]; rewrite E1 in E2; injection E2; congruence.
  - intros K. unfold cs, edges_of. eapply Forall2_map2; [|exact Hrule2]. intros ab ev _ [He (H1 & H2 & H3)].
    exists (vert es ev), (vert es (flip ev)). cbn [fst snd]. split; [exact (ends_of_event es ev He)|]. split; [exact H2|].
    destruct H3 as [[(e0 & Hc) H3]|(_ & _ & H4)]; [|exact H4]. pose proof (Hvf ev He). rewrite H3, add32_small by (unfold lenz in *; lia).
    replace (vert es (flip ev) + 1 - 1) with (vert es (flip ev)) by lia. apply (K e0). apply Hc.
Qed.
Print Assumptions C107_pl_rule.

(** C107, the curves that come back: whatever the mix of open lines and loops, when the vertex line with the number of the
    first vertex of each loop is the line of that vertex, exactly the saved segments are loaded. *)
Theorem C107_same_curve :
  forall (F : Num) (m : wmesh F (Z * Z)) (around : Z -> list (nat * bool)),
    num_ok F -> curve_ok (wm_cells m) around (List.length (wm_points m)) -> savable m ->
    Z.of_nat (List.length (wm_points m)) < 2 ^ 32 -> wm_cells m <> [] ->
    exists ls vs, write_pl around m = Ok (unlines ls) /\ numbers_lines m ls vs /\
      ((forall e0 w, first_of_loop (wm_cells m) around e0 w -> nth_error vs (Z.to_nat w) = Some w) ->
       exists m', read_pl F (unlines ls) = Ok m' /\ same_segments m m').
Proof.
  intros F m around HF G Hsv Hpts Hnil.
  destruct (C107_pl_rule F m around HF G Hsv Hpts Hnil) as (ls & vs & cs & order & W & N & Hp & P & _ & Rd & _ & K).
  exists ls, vs. split; [exact W|]. split; [exact N|]. intros H. apply K in H.
  destruct Rd as (m' & R & E & L & _).
  { intros c Hc. apply In_nth_error in Hc as (i & Hi).
    assert (Q : exists e, kept (wm_cells m) vs c e /\ placed (wm_cells m) around vs c e).
    { clear - H P Hi. revert i Hi. induction H as [|x y l k H _ IH]; intros i Hi; [now destruct i|]. inversion P; subst.
      destruct i as [|i]; [injection Hi as <-; eauto|eapply IH; eauto]. }
    destruct Q as (e & (v & w & _ & _ & Hw) & (v2 & w2 & _ & _ & _ & H0 & _)).
    assert (Z.to_nat (snd c) < List.length vs)%nat by (apply nth_error_Some; congruence). lia. }
  exists m'. split; [exact R|]. exists order. split; [exact Hp|]. rewrite E.
  assert (Ln : forall i v, nth_error vs i = Some v -> exists p p', nth_error (wm_points m) (Z.to_nat v) = Some p /\ nth_error (m_points m') i = Some p' /\ reprinted F p p').
  { clear - L. induction L as [|v p' vs ps (p & _ & H1 & H2) _ IH]; intros i x Hx; [now destruct i|].
    destruct i as [|i]; [injection Hx as <-; exists p, p'; auto|exact (IH i x Hx)]. }
  clear - H Ln. induction H as [|c e l k (v & w & E1 & A & B) _ IH]; constructor; [|exact IH].
  destruct (Ln _ _ A) as (p & p' & X1 & X2 & X3), (Ln _ _ B) as (q & q' & Y1 & Y2 & Y3).
  exists v, w, p, q, p', q'. auto 10.
Qed.
Print Assumptions C107_same_curve.

(** An open line and a loop: the third vertex line is the one of vertex 2, where the loop begins, and the loop comes back. *)
Definition ex_mixed : wmesh ExNum (Z * Z) :=
  mkWmesh (F:=ExNum) None [(0, 0, 0); (1, 0, 0); (5, 0, 0); (6, 0, 0); (5, 1, 0)] [(0, 1); (2, 3); (3, 4); (4, 2)] [].
(** The same curve with the loop before: vertices 0 to 2, and the line joins vertices 3 and 4.  The file begins with the line. *)
Definition ex_shifted : wmesh ExNum (Z * Z) :=
  mkWmesh (F:=ExNum) None [(5, 0, 0); (6, 0, 0); (5, 1, 0); (0, 0, 0); (1, 0, 0)] [(0, 1); (1, 2); (2, 0); (3, 4)] [].
Lemma ex_loop : first_of_loop (wm_cells ex_mixed) (by_edge (wm_cells ex_mixed)) 1 2.
Proof.
  assert (K : forall x, linked (wm_cells ex_mixed) 2 x -> x = 2 \/ x = 3 \/ x = 4).
  { assert (K : forall v x, linked (wm_cells ex_mixed) v x -> v = 2 \/ v = 3 \/ v = 4 -> x = 2 \/ x = 3 \/ x = 4).
    { induction 1 as [v|v w x e s Hv Hw _ IH]; [auto|]. intros Hc. apply IH. unfold end_of in *.
      destruct e as [|[|[|[|e]]]]; cbn in Hv, Hw; [| | | |destruct e; discriminate]; destruct s; cbn in *; injection Hv as <-; injection Hw as <-; lia. }
    intros x Hx. apply (K 2 x Hx). auto. }
  split; [reflexivity|]. split.
  - intros x Hx. destruct (K x Hx) as [-> |[-> | ->]]; reflexivity.
  - intros e (v & w & Hv & Hw & Hl). destruct e as [|e]; [|lia]. exfalso. cbn in Hv, Hw. injection Hv as <-. injection Hw as <-.
    destruct (K 0 Hl) as [?|[?|?]]; lia.
Qed.
Example C107_example :
  curve_ok (wm_cells ex_mixed) (by_edge (wm_cells ex_mixed)) 5 /\ savable ex_mixed /\
  (exists e0 w, first_of_loop (wm_cells ex_mixed) (by_edge (wm_cells ex_mixed)) e0 w) /\
  match write_pl (by_edge (wm_cells ex_mixed)) ex_mixed with
  | Ok t => mesh_is zz_eqb (read_pl ExNum t) (Some (lit "edged_curve_name"))
      [(0, 0, 0); (1, 0, 0); (5, 0, 0); (6, 0, 0); (5, 1, 0)] [(0, 1); (2, 3); (3, 4); (4, 2)] []
  | _ => false
  end = true /\
  match write_pl (by_edge (wm_cells ex_shifted)) ex_shifted with
  | Ok t => mesh_is zz_eqb (read_pl ExNum t) (Some (lit "edged_curve_name"))
      [(0, 0, 0); (1, 0, 0); (5, 0, 0); (6, 0, 0); (5, 1, 0)] [(0, 1); (2, 3); (3, 4); (4, 0)] []
  | _ => false
  end = true.
Proof.
  split; [apply by_edge_ok; repeat (apply Forall_cons; [cbn; lia|]); constructor|].
  split; [split; [constructor|cbn; lia]|]. split; [exists 1%nat, 2; exact ex_loop|]. split; vm_compute; reflexivity.
Qed.
