(** * Saving again a curve that was loaded from a PLine file (C144). *)
From Coq Require Import ZArith List Lia Bool Ascii String Permutation.
From Verif Require Import Base Text TextFacts GocadModel MeshModel TsModel Spec GocadFacts TsFacts PlModel PlFacts PlRule PlAgain PropsPl PropsPlRule PropsResave ExNum ExCheck.
Import ListNotations.
Local Open Scope string_scope.
Local Open Scope list_scope.
Local Open Scope Z_scope.

(** ** Specification *)

(** [w] is the loaded curve [m'] as the writer sees it (with attributes that are not said here). *)
Definition loaded_curve {F} (m' : mesh F (Z * Z)) (w : wmesh F (Z * Z)) : Prop := wm_points w = m_points m' /\ wm_cells w = m_cells m'.
(** The two curves have the same exported attributes, in the same order: what is printed for the vertex [i] of [w] is what is
    printed for the vertex of [m] that has the vertex line [i].  [vs]: the vertices of [m] in the order of the vertex lines. *)
Definition same_columns {F} (vs : list Z) (m w : wmesh F (Z * Z)) : Prop :=
  (wm_attrs m = [] <-> wm_attrs w = []) /\
  exists l k, (forall keep, (forall a, keep a = true <-> w_generic a = true) -> l = filter keep (wm_attrs m) /\ k = filter keep (wm_attrs w)) /\
    Forall2 (fun a b => w_name a = w_name b /\ forall i v, nth_error vs i = Some v -> os_text F (w_val b i) = os_text F (w_val a (Z.to_nat v))) l k.
(** Nothing to export, and the internal attribute of every curve. *)
Definition bare {F} (m : wmesh F (Z * Z)) : Prop := wm_attrs m <> [] /\ forall a, In a (wm_attrs m) -> w_generic a = false.

(** ** Facts *)
Section Texts.
Context (F : Num) (HF : num_ok F) (HS : stable F) (m w : wmesh F (Z * Z)).
Notation ws := (filter w_generic (wm_attrs m)).
Notation ws' := (filter w_generic (wm_attrs w)).
Notation pt := (fun v => nth (Z.to_nat v) (wm_points m) (zero F, zero F, zero F)).
Notation pt' := (fun v => nth (Z.to_nat v) (wm_points w) (zero F, zero F, zero F)).
Context (V : list Z) (EP : wm_points w = map (fun v => rvp F (pt v)) V) (SC : same_columns V m w).
Lemma columns : Forall2 (fun a b => w_name a = w_name b /\ forall i v, nth_error V i = Some v -> os_text F (w_val b i) = os_text F (w_val a (Z.to_nat v))) ws ws'.
Proof. destruct SC as (_ & l & k & E & H). destruct (E w_generic) as [-> ->]; [tauto|exact H]. Qed.
Lemma same_keyword : vrtx_keyword (wm_attrs w) = vrtx_keyword (wm_attrs m).
Proof.
  destruct SC as (E & _). destruct (wm_attrs m), (wm_attrs w); try reflexivity; exfalso; [pose proof (proj1 E eq_refl)|pose proof (proj2 E eq_refl)]; discriminate.
Qed.
Lemma names_same {A B} (R : B -> B -> Prop) (f : B -> A) l k : (forall a b, R a b -> f a = f b) -> Forall2 R l k -> map f k = map f l.
Proof. intros H. induction 1 as [|a b l k Hab _ IH]; [reflexivity|]. cbn. rewrite IH, (H a b Hab). reflexivity. Qed.
Lemma same_vrtx kw n v i : nth_error V i = Some v -> pvrtx_line kw ws' n (Z.of_nat i) (pt' (Z.of_nat i)) = pvrtx_line kw ws n v (pt v).
Proof.
  intros H.
  assert (M : map (fun a => os_text F (w_val a (Z.to_nat (Z.of_nat i)))) ws' = map (fun a => os_text F (w_val a (Z.to_nat v))) ws).
  { rewrite Nat2Z.id. pose proof columns as C. revert C. induction 1 as [|a b l k [_ Hab] _ IH]; [reflexivity|]. cbn [map]. f_equal; [apply (Hab i v H)|exact IH]. }
  unfold pvrtx_line. rewrite M, EP, Nat2Z.id. pose proof (map_nth_error (fun v => rvp F (pt v)) _ _ H) as H2.
  rewrite (nth_error_nth _ _ _ H2). destruct (nth (Z.to_nat v) (wm_points m) (zero F, zero F, zero F)) as [[x y] z]. cbn [rvp].
  destruct HS as [_ S2]. rewrite (S2 x _ (rv_ok F x HF)), (S2 y _ (rv_ok F y HF)), (S2 z _ (rv_ok F z HF)).
  reflexivity.
Qed.
Lemma same_vrtxs kw : forall vs pre post n, V = pre ++ vs ++ post ->
  pvrtx_lines kw ws' pt' n (rangez (lenz pre) (List.length vs)) = pvrtx_lines kw ws pt n vs.
Proof.
  induction vs as [|v vs IH]; intros pre post n E; [reflexivity|]. cbn [List.length rangez pvrtx_lines].
  assert (H : nth_error V (List.length pre) = Some v) by (rewrite E, nth_error_app2, Nat.sub_diag by lia; reflexivity).
  change (lenz pre) with (Z.of_nat (List.length pre)) at 1 2. rewrite (same_vrtx kw n v _ H). f_equal.
  replace (lenz pre + 1) with (lenz (pre ++ [v])) by (unfold lenz; rewrite app_length; cbn; lia). apply (IH (pre ++ [v]) post). now rewrite <- app_assoc.
Qed.
Lemma same_blocks kw : forall bs pre post, V = pre ++ all_vs bs ++ post -> numbered (1 + lenz pre) bs ->
  flat_map (block_lines kw ws' pt') (map self bs) = flat_map (block_lines kw ws pt) bs.
Proof.
  induction bs as [|b bs IH]; intros pre post E Hn; [reflexivity|]. destruct Hn as [Ho Hn]. cbn [map flat_map]. unfold all_vs in E. cbn [flat_map] in E. fold (all_vs bs) in E. f_equal.
  - unfold block_lines, self. cbn [b_off b_vs b_close]. replace (b_off b - 1) with (lenz pre) by lia. rewrite (same_vrtxs kw (b_vs b) pre (all_vs bs ++ post)) by (rewrite E, <- app_assoc; reflexivity).
    unfold lenz. now rewrite !rangez_length.
  - apply (IH (pre ++ b_vs b) post); [rewrite E, <- !app_assoc; reflexivity|]. unfold lenz in *. rewrite app_length.
    replace (1 + Z.of_nat (List.length pre + List.length (b_vs b))) with (1 + Z.of_nat (List.length pre) + Z.of_nat (List.length (b_vs b))) by lia. exact Hn.
Qed.
Lemma same_props : prop_lines ws' = prop_lines ws.
Proof.
  pose proof columns as C. assert (N : map w_name ws' = map w_name ws) by (apply (names_same _ _ _ _ (fun a b H => proj1 H) C)).
  now apply prop_lines_names.
Qed.
End Texts.

Lemma pl_again F (m : wmesh F (Z * Z)) around : num_ok F -> stable F -> curve_ok (wm_cells m) around (List.length (wm_points m)) -> savable m ->
  Z.of_nat (List.length (wm_points m)) < two32 -> wm_cells m <> [] ->
  exists ls vs, write_pl around m = Ok (unlines ls) /\ numbers_lines m ls vs /\
    (no_loop (wm_cells m) around \/ tidy_loops (wm_cells m) around -> forall e0 w, first_of_loop (wm_cells m) around e0 w -> nth_error vs (Z.to_nat w) = Some w) /\
    ((forall e0 w, first_of_loop (wm_cells m) around e0 w -> nth_error vs (Z.to_nat w) = Some w) ->
     exists m', read_pl F (unlines ls) = Ok m' /\
       forall (w : wmesh F (Z * Z)) (around' : Z -> list (nat * bool)),
         loaded_curve m' w -> curve_ok (wm_cells w) around' (List.length (wm_points w)) -> same_columns vs m w ->
         write_pl around' w = Ok (unlines ls)).
Proof.
  intros HF HS G Hsv Hpts Hnil.
  destruct (pl_written_blocks F m around HF G Hsv) as (paths & bs & B & R & Hd & Hn & Hne & Hsz & Hp & Hseg & Hlt & Hvs & Hop).
  set (es := wm_cells m) in *.
  assert (Hnd : NoDup (edges_of paths)) by (apply (Permutation_NoDup (Permutation_sym Hp)), seq_NoDup).
  destruct (pl_vertex_lines F m bs HF Hn Hne Hsz Hvs) as (_ & FL & FV).
  eexists _, (all_vs bs). split; [unfold write_pl; rewrite R; reflexivity|]. split; [exact (conj FL FV)|]. split; [intros H e0 v; exact (own_lines es around _ G paths bs e0 v Hd Hp Hlt Hn Hpts (Hop H))|]. intros K.
  pose proof (tidy_blocks es around _ G paths bs Hd Hnd Hlt Hn Hpts K) as T.
  assert (EC : map (fun ab : Z * Z => (fst ab - 1, snd ab - 1)) (flat_map segs bs) = curve_of bs).
  { clear - T. induction T as [|b bs Hb _ IH]; [reflexivity|]. cbn [flat_map]. rewrite map_app, IH, (segs_edges b Hb). reflexivity. }
  pose proof (curve_bound bs 0 T Hn) as CB. cbv beta in CB. rewrite Z.add_0_l in CB.
  assert (Hb32 : Forall (fun ab => 1 <= fst ab < two32 /\ 1 <= snd ab < two32) (flat_map segs bs)).
  { rewrite <- EC in CB. apply (proj1 (Forall_map _ _ _)) in CB. eapply Forall_impl; [|exact CB]. cbv beta. cbn [fst snd]. intros ab H. lia. }
  assert (Hbs : bs <> []).
  { intros ->. inversion Hd; subst. unfold edges_of in Hp. cbn in Hp. apply Permutation_nil in Hp. apply Hnil. now destruct es. }
  destruct (pl_read_back F m around bs HF Hsv R Hbs Hn Hne Hsz Hb32) as (text & W & Rb).
  unfold write_pl in W. rewrite R in W. cbn [bind] in W.
  assert (Inj : forall a b : bytes, Ok a = Ok b -> b = a) by congruence. apply Inj in W. subst text.
  set (pts := map (fun v => rvp F (nth (Z.to_nat v) (wm_points m) (zero F, zero F, zero F))) (all_vs bs)).
  assert (Lp : lenz pts = lenz (all_vs bs)) by (unfold pts, lenz; now rewrite map_length).
  assert (Bd : build_curve empty_mesh (pl_read_back_curve F m bs) = Ok (mkMesh (Some (lit "edged_curve_name")) pts (curve_of bs) [])).
  { unfold build_curve, pl_read_back_curve. cbn [e_points e_name e_edges]. fold pts. rewrite set_name_empty, create_points_spec, EC.
    cbn [m_name m_points m_cells m_attrs app map]. change (nb_vertices empty_mesh) with 0.
    replace (map _ (curve_of bs)) with (curve_of bs).
    - rewrite create_edge_list; [reflexivity|]. cbn [m_points]. rewrite Lp. exact CB.
    - symmetry. rewrite <- (map_id (curve_of bs)) at 2. apply map_ext_in. intros ab Hab. rewrite Forall_forall in CB. specialize (CB ab Hab).
      rewrite !add32_small, !Z.add_0_r by lia. now destruct ab. }
  rewrite Rb, Bd. eexists. split; [reflexivity|]. intros w around' [EP ECw] Gw SC. cbn [m_points m_cells] in EP, ECw.
  destruct (opens_first es around _ bs B) as (a & c & Ebs & Ha & Hc).
  assert (Lw : List.length (wm_points w) = List.length (all_vs bs)) by (rewrite EP; unfold pts; apply map_length).
  rewrite ECw, Lw in Gw.
  assert (Ln : List.length (curve_of bs) = List.length es).
  { rewrite <- EC, map_length. transitivity (List.length (List.concat paths)); [clear - Hseg; induction Hseg; cbn; congruence|].
    apply Permutation_length in Hp. unfold edges_of in Hp. now rewrite map_length, seq_length in Hp. }
  destruct Hsv as [_ Hs]. change (2 ^ 32) with two32 in Hs. fold es in Hs.
  pose proof (found_again bs around' Gw T Hn ltac:(lia) ltac:(lia) a c Ebs Ha Hc) as FA.
  unfold write_pl, pl_lines. rewrite ECw, Lw, FA. cbn [bind].
  rewrite (same_keyword F m w (all_vs bs) SC), (same_props F m w (all_vs bs) SC).
  rewrite (same_blocks F HF HS m w (all_vs bs) EP SC (vrtx_keyword (wm_attrs m)) bs [] []) by (cbn [app]; rewrite ?app_nil_r; assumption || reflexivity).
  rewrite <- !app_assoc. reflexivity.
Qed.
(** C144.  Whatever the curve (with at least one edge): when, for each of its loops, the vertex line with the number of the first
    vertex of the loop is the line of that vertex (which C107 shows to be the condition for the curve to come back), the loaded curve
    is saved to the same file, whatever the order in which its edges are found around each vertex. *)
Theorem C144_pl_again :
  forall (F : Num) (m : wmesh F (Z * Z)) (around : Z -> list (nat * bool)),
    num_ok F -> stable F -> curve_ok (wm_cells m) around (List.length (wm_points m)) -> savable m ->
    Z.of_nat (List.length (wm_points m)) < 2 ^ 32 -> wm_cells m <> [] ->
    exists ls vs, write_pl around m = Ok (unlines ls) /\ numbers_lines m ls vs /\
      ((forall e0 w, first_of_loop (wm_cells m) around e0 w -> nth_error vs (Z.to_nat w) = Some w) ->
       exists m', read_pl F (unlines ls) = Ok m' /\
         forall (w : wmesh F (Z * Z)) (around' : Z -> list (nat * bool)),
           loaded_curve m' w -> curve_ok (wm_cells w) around' (List.length (wm_points w)) -> same_columns vs m w ->
           write_pl around' w = Ok (unlines ls)).
Proof.
  intros F m around HF HS G Hsv Hpts Hnil. destruct (pl_again F m around HF HS G Hsv Hpts Hnil) as (ls & vs & W & N & _ & H). exists ls, vs. auto.
Qed.
Print Assumptions C144_pl_again.

(** C144, without the vertex lines: a curve whose parts all reach a vertex that has not two edges, or whose loops are tidy (each
    one numbered from its first edge, in order), and that has no attribute to export, gives the same file byte for byte. *)
Theorem C144_pl_again_same_file :
  forall (F : Num) (m : wmesh F (Z * Z)) (around : Z -> list (nat * bool)),
    num_ok F -> stable F -> curve_ok (wm_cells m) around (List.length (wm_points m)) -> savable m ->
    Z.of_nat (List.length (wm_points m)) < 2 ^ 32 -> wm_cells m <> [] -> bare m ->
    no_loop (wm_cells m) around \/ tidy_loops (wm_cells m) around ->
    exists text m', write_pl around m = Ok text /\ read_pl F text = Ok m' /\
      forall (w : wmesh F (Z * Z)) (around' : Z -> list (nat * bool)),
        loaded_curve m' w -> curve_ok (wm_cells w) around' (List.length (wm_points w)) -> bare w -> write_pl around' w = Ok text.
Proof.
  intros F m around HF HS G Hsv Hpts Hnil [Hm1 Hm2] Hno. destruct (pl_again F m around HF HS G Hsv Hpts Hnil) as (ls & vs & W & _ & L & H).
  destruct (H (L Hno)) as (m' & R & A). exists (unlines ls), m'. split; [exact W|]. split; [exact R|]. intros w around' Hw Gw [Hw1 Hw2]. apply (A w around' Hw Gw). split; [tauto|].
  exists [], []. split; [|constructor]. intros keep Hk.
  assert (N : forall l : list (wattr F), (forall a, In a l -> w_generic a = false) -> [] = filter keep l).
  { induction l as [|a l IH]; intros Hl; [reflexivity|]. cbn [filter]. destruct (keep a) eqn:Ek.
    - apply Hk in Ek. rewrite Hl in Ek by now left. discriminate Ek.
    - apply IH. intros b Hb. apply Hl. now right. }
  split; now apply N.
Qed.
Print Assumptions C144_pl_again_same_file.

(** C144, the loops that do not come back: the second file is not the first. *)
Definition inside : list (wattr ExNum) := [mkWattr (F:=ExNum) (lit "points") false (fun _ => 0)].
Theorem C144_pl_again_loop_refuted :
  exists (m w : wmesh ExNum (Z * Z)) m' text text',
    curve_ok (wm_cells m) (by_edge (wm_cells m)) (List.length (wm_points m)) /\ savable m /\ bare m /\
    write_pl (by_edge (wm_cells m)) m = Ok text /\ read_pl ExNum text = Ok m' /\ loaded_curve m' w /\ bare w /\
    curve_ok (wm_cells w) (by_edge (wm_cells w)) (List.length (wm_points w)) /\
    write_pl (by_edge (wm_cells w)) w = Ok text' /\ text' <> text.
Proof.
  set (m := mkWmesh (F:=ExNum) None (wm_points ex_shifted) (wm_cells ex_shifted) inside).
  set (w := mkWmesh (F:=ExNum) None [(0, 0, 0); (1, 0, 0); (5, 0, 0); (6, 0, 0); (5, 1, 0)] [(0, 1); (2, 3); (3, 4); (4, 0)] inside).
  assert (E : match write_pl (by_edge (wm_cells m)) m, write_pl (by_edge (wm_cells w)) w with
    | Ok t, Ok t' => mesh_is zz_eqb (read_pl ExNum t) (Some (lit "edged_curve_name")) (wm_points w) (wm_cells w) [] && negb (beq t' t)
    | _, _ => false end = true) by (vm_compute; reflexivity).
  assert (Bi : forall x, wm_attrs x = inside -> bare x) by (intros x Hx; unfold bare; rewrite Hx; split; [discriminate|intros a [<- |[]]; reflexivity]).
  assert (Cm : curve_ok (wm_cells m) (by_edge (wm_cells m)) (List.length (wm_points m))) by (apply by_edge_ok; repeat (apply Forall_cons; [cbn; lia|]); constructor).
  assert (Cw : curve_ok (wm_cells w) (by_edge (wm_cells w)) (List.length (wm_points w))) by (apply by_edge_ok; repeat (apply Forall_cons; [cbn; lia|]); constructor).
  assert (Sm : savable m) by (split; [constructor; [apply cleanb_ok; reflexivity|constructor]|cbn; lia]).
  exists m, w. revert E. destruct (write_pl (by_edge (wm_cells m)) m) as [t| | |]; [|intros E; discriminate E ..].
  destruct (write_pl (by_edge (wm_cells w)) w) as [t'| | |]; [|intros E; discriminate E ..]. intros E. apply andb_true_iff in E as [E1 E2].
  destruct (mesh_is_ok _ _ _ _ _ _ zz_eqb_ok E1) as (m' & R & _ & P & C & _). exists m', t, t'. split; [exact Cm|]. split; [exact Sm|]. split; [now apply Bi|].
  split; [reflexivity|]. split; [exact R|]. split; [split; symmetry; assumption|]. split; [now apply Bi|]. split; [exact Cw|]. split; [reflexivity|].
  intros ->. rewrite beq_refl in E2. discriminate E2.
Qed.
Print Assumptions C144_pl_again_loop_refuted.

Lemma ex_stable : stable ExNum.
Proof.
  split; intros x y H; [unfold reread_coord in H|unfold reread_value in H]; cbn [atod pt_text os_text ExNum] in *; rewrite zread_zshow in H; congruence.
Qed.
(** An open line and a loop, saved, loaded and saved again. *)
Definition ex_mixed_in : wmesh ExNum (Z * Z) := mkWmesh (F:=ExNum) None (wm_points ex_mixed) (wm_cells ex_mixed) inside.
Example C144_example :
  num_ok ExNum /\ stable ExNum /\ curve_ok (wm_cells ex_mixed_in) (by_edge (wm_cells ex_mixed_in)) (List.length (wm_points ex_mixed_in)) /\ savable ex_mixed_in /\ bare ex_mixed_in /\
  same_columns [0; 1; 2; 3; 4] ex_mixed_in ex_mixed_in /\
  match write_pl (by_edge (wm_cells ex_mixed_in)) ex_mixed_in with
  | Ok t => match read_pl ExNum t with
            | Ok m' => match write_pl (fun v => rev (by_edge (m_cells m') v)) (mkWmesh None (m_points m') (m_cells m') inside) with
                       | Ok t' => beq t' t
                       | _ => false
                       end
            | _ => false
            end
  | _ => false
  end = true.
Proof.
  split; [exact ExNum_ok|]. split; [exact ex_stable|].
  split; [apply by_edge_ok; repeat (apply Forall_cons; [cbn; lia|]); constructor|].
  split; [split; [constructor; [apply cleanb_ok; reflexivity|constructor]|cbn; lia]|].
  split; [split; [discriminate|intros a [<- |[]]; reflexivity]|]. split; [|vm_compute; reflexivity].
  split; [tauto|]. exists [], []. split; [|constructor]. intros keep K. cbn [ex_mixed_in wm_attrs inside filter].
  destruct (keep (mkWattr (F:=ExNum) (lit "points") false (fun _ => 0))) eqn:E; [apply K in E; discriminate E|auto].
Qed.
