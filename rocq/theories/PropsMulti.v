(** * Files with several objects (C08, C09). *)
From Coq Require Import ZArith List Lia Bool Ascii String.
From Verif Require Import Base Text TextFacts GocadModel MeshModel TsModel Spec GocadFacts TsFacts CrlfFacts
  StreamFacts MultiFacts MultiMore ExNum ExCheck PropsTsVs.
Import ListNotations.
Local Open Scope string_scope.
Local Open Scope list_scope.
Local Open Scope Z_scope.

(** Number of vertices of a list of meshes. *)
Fixpoint total {F} (ms : list (mesh F tri)) : Z :=
  match ms with [] => 0 | m :: r => Z.of_nat (List.length (m_points m)) + total r end.
(** The triangles of each mesh, renumbered after the vertices of the previous ones. *)
Fixpoint union_cells {F} (off : Z) (ms : list (mesh F tri)) : list tri :=
  match ms with
  | [] => []
  | m :: r => map (fun '(a, b, c) => (a + off, b + off, c + off)) (m_cells m)
              ++ union_cells (off + Z.of_nat (List.length (m_points m))) r
  end.
(** Every triangle uses vertices of its own mesh. *)
Definition own_vertices {F} (m : mesh F tri) : Prop :=
  forall a b c, In (a, b, c) (m_cells m) ->
  let n := Z.of_nat (List.length (m_points m)) in 0 <= a < n /\ 0 <= b < n /\ 0 <= c < n.

(** A property that two of the meshes have holds values of the same type in both. *)
Definition same_kinds {F C} (ms : list (mesh F C)) : Prop :=
  forall m m' n a a', In m ms -> In m' ms -> In (n, a) (m_attrs m) -> In (n, a') (m_attrs m') -> a_type a = a_type a'.

Lemma find_attr_pair {N} n (l : list (bytes * attr N)) a : find_attr n l = Some a -> In (n, a) l.
Proof.
  unfold find_attr. destruct (find _ l) as [[k b]|] eqn:E; [|discriminate]. intros H. injection H as <-.
  apply find_some in E as [E1 E2]. cbn [fst] in E2. apply beq_eq in E2. now subst k.
Qed.
Lemma kind_in F n t (l : list (bytes * attr (num F))) : kind F l n = Some t -> exists a, In (n, a) l /\ a_type a = t.
Proof.
  unfold kind. destruct (find_attr n l) as [a|] eqn:E; [|discriminate]. cbn. intros H. injection H as <-.
  exists a. split; [now apply find_attr_pair|reflexivity].
Qed.
Lemma total_nonneg {F} (ms : list (mesh F tri)) : 0 <= total ms.
Proof. induction ms; cbn [total]; lia. Qed.
Lemma union_cells_plus F k off (ms : list (mesh F tri)) :
  map (plus_tri k) (union_cells off ms) = union_cells (k + off) ms.
Proof.
  revert off. induction ms as [|m r IH]; intros off; [reflexivity|]. cbn [union_cells].
  rewrite map_app, map_map, IH. f_equal; [|f_equal; lia].
  apply map_ext. intros [[a b] c]. unfold plus_tri. repeat (f_equal; try lia).
Qed.
Lemma wf_own F (m : mesh F tri) : wf F m -> own_vertices m.
Proof.
  intros [_ H] a b c Hi. unfold wf_cells in H. rewrite Forall_forall in H. apply H in Hi. exact Hi.
Qed.

(** C08.  Files that load on their own, put one after the other, load as the disjoint union, as long as a
    property they share has values of the same type everywhere. *)
Theorem C08_disjoint_union :
  forall (F : Num) (files : list (list bytes)) (ms : list (mesh F tri)),
    Forall2 (fun ls m => Forall (fun l => ~ In LF l) ls /\ read_ts F (unlines ls) = Ok m) files ms ->
    total ms < 2 ^ 32 -> same_kinds ms ->
    exists m, read_ts F (unlines (List.concat files)) = Ok m /\
      m_points m = List.concat (map m_points ms) /\
      m_cells m = union_cells 0 ms /\
      Forall own_vertices ms.
Proof.
  intros F files ms H Ht Hk.
  assert (G : exists m, read_ts F (unlines (List.concat files)) = Ok m /\
      m_points m = List.concat (map m_points ms) /\ m_cells m = union_cells 0 ms /\
      Forall own_vertices ms /\ Forall is_line (List.concat files) /\
      forall p t, kind F (m_attrs m) p = Some t -> exists k, In k ms /\ kind F (m_attrs k) p = Some t).
  { induction H as [|ls m files ms [H1 H2] Hr IH].
    - exists empty_mesh. repeat split; try constructor. discriminate.
    - cbn [total] in Ht. pose proof (total_nonneg ms). destruct IH as [k [K1 [K2 [K3 [K4 [K5 K6]]]]]]; [lia| |].
      { intros x y n a a' Hx Hy. apply Hk; now right. }
      assert (Hag : agree F (m_attrs m) (m_attrs k)).
      { intros p t t' Hp Hp'. apply K6 in Hp' as [y [Hy Hp']]. apply kind_in in Hp as [a [A1 <-]].
        apply kind_in in Hp' as [a' [A2 <-]]. apply (Hk m y p a a'); auto; [now left|now right]. }
      assert (Hn : nb_vertices m + nb_vertices k < two32).
      { unfold nb_vertices, lenz, two32. rewrite K2. replace (Z.of_nat (List.length (List.concat (map m_points ms)))) with (total ms).
        - change (2 ^ 32) with 4294967296 in Ht. lia.
        - clear. induction ms as [|m r IH]; [reflexivity|]. cbn [total map List.concat]. rewrite app_length. lia. }
      cbn [List.concat].
      destruct (read_ts_glued F ls (List.concat files) m k H1 K5 H2 K1 Hn Hag) as [u [U1 [U2 [U3 [U4 [U5 [_ U6]]]]]]].
      destruct U2 as [_ [G2 G3]].
      exists u. split; [assumption|]. split; [cbn [map List.concat]; congruence|]. split.
      + rewrite G3, K3. cbn [union_cells]. f_equal.
        * rewrite <- (map_id (m_cells m)) at 1. apply map_ext. intros [[a b] c]. now rewrite !Z.add_0_r.
        * rewrite union_cells_plus. unfold nb_vertices, lenz. f_equal. lia.
      + split; [constructor; [now apply wf_own|assumption]|]. split; [apply Forall_app; split; assumption|].
        intros p t Hp. apply U6 in Hp as [Hp|Hp]; [exists m; split; [now left|assumption]|].
        apply K6 in Hp as [y [Hy Hp]]. exists y. split; [now right|assumption]. }
  destruct G as [m [G1 [G2 [G3 [G4 _]]]]]. exists m. auto.
Qed.
Print Assumptions C08_disjoint_union.

(** Saved surfaces put one after the other. *)
Theorem C08_saved_surfaces :
  forall (F : Num) (ws : list (wmesh F tri)),
    num_ok F -> Forall names_ok ws -> Forall triangles_ok ws ->
    fold_right (fun w n => Z.of_nat (List.length (wm_points w)) + n) 0 ws < 2 ^ 32 ->
    exists m parts, read_ts F (List.concat (map write_ts ws)) = Ok m /\
      m_points m = List.concat parts /\
      Forall2 (fun w ps => Forall2 (reread_point F) (wm_points w) ps) ws parts /\
      m_cells m = (fix cells off l := match l with
        | [] => []
        | w :: r => map (fun '(a, b, c) => (a + off, b + off, c + off)) (wm_cells w)
                    ++ cells (off + Z.of_nat (List.length (wm_points w))) r
        end) 0 ws.
Proof.
  intros F ws HF Hn Ht Hs.
  destruct (C08_disjoint_union F (map ts_lines ws) (map (reread_mesh F) ws)) as [m [M1 [M2 [M3 _]]]].
  - clear Hs. induction ws as [|w ws IH]; [constructor|]. inversion Hn; inversion Ht; subst. cbn [map]. constructor; [|auto].
    split.
    + apply ts_lines_lines; [assumption|]. now apply writable_of.
    + apply read_ts_written; [assumption|]. now apply writable_of.
  - replace (total (map (reread_mesh F) ws)) with (fold_right (fun w n => Z.of_nat (List.length (wm_points w)) + n) 0 ws); [assumption|].
    clear. induction ws as [|w r IH]; [reflexivity|]. cbn [map total fold_right]. rewrite IH.
    unfold reread_mesh. cbn [m_points]. now rewrite map_length.
  - intros x y n a a' Hx Hy Ha Ha'. apply in_map_iff in Hx as [wx [<- _]], Hy as [wy [<- _]].
    revert Ha Ha'. unfold reread_mesh. cbn [m_attrs]. rewrite !in_map_iff.
    intros [u [U _]] [v [V _]]. unfold reread_attr in *. injection U as _ <-. injection V as _ <-. reflexivity.
  - exists m, (map (fun w => map (rp F) (wm_points w)) ws). split; [|split; [|split]].
    + rewrite <- M1. f_equal. clear. induction ws as [|w r IH]; [reflexivity|]. cbn [map List.concat].
      rewrite IH. unfold write_ts. rewrite unlines_app. reflexivity.
    + rewrite M2, map_map. reflexivity.
    + clear -HF. induction ws as [|w r IH]; constructor; auto. now apply reread_points_ok.
    + rewrite M3. clear. generalize 0. induction ws as [|w r IH]; intros off; [reflexivity|].
      cbn [map union_cells]. rewrite IH. unfold reread_mesh. cbn [m_points m_cells]. now rewrite map_length.
Qed.
Print Assumptions C08_saved_surfaces.

Definition ex_small : wmesh ExNum tri :=
  mkWmesh (F:=ExNum) (Some (lit "small")) [(5, 5, 5); (6, 5, 5); (5, 6, 5)] [(2, 0, 1)]
    [mkWattr (F:=ExNum) (lit "my prop") true (fun v => 100 + Z.of_nat v)].
Lemma ex_small_names : names_ok ex_small.
Proof.
  split; [|split].
  - intros n E. injection E as <-. apply lineb_ok. reflexivity.
  - repeat (apply Forall_cons; [apply cleanb_ok; reflexivity|]). constructor.
  - cbn [ex_small wm_attrs map w_name]. repeat constructor; simpl; intuition discriminate.
Qed.
Lemma ex_small_triangles : triangles_ok ex_small.
Proof.
  split; [simpl; lia|]. intros a b c H. simpl in H.
  destruct H as [H|[]]; injection H as <- <- <-; simpl; lia.
Qed.
(** Two surfaces in one file: the geometry is right; the property of the second one is on the
    vertices of the first. *)
Lemma two_surfaces : mesh_is zzz_eqb (read_ts ExNum (write_ts ex_surface ++ write_ts ex_small)) (Some (lit "small"))
    [(0, 0, 0); (10, 0, -5); (0, 10, 7); (10, 10, 1); (5, 5, 5); (6, 5, 5); (5, 6, 5)]
    [(0, 1, 2); (2, 1, 3); (6, 4, 5)]
    [(lit "my prop", [[100]; [101]; [102]; [9]; [-99999]; [-99999]; [-99999]])] = true.
Proof. vm_compute. reflexivity. Qed.
Lemma small_alone : mesh_is zzz_eqb (read_ts ExNum (write_ts ex_small)) (Some (lit "small"))
    [(5, 5, 5); (6, 5, 5); (5, 6, 5)] [(2, 0, 1)] [(lit "my prop", [[100]; [101]; [102]])] = true.
Proof. vm_compute. reflexivity. Qed.
Lemma attr_value_of {C} (m : mesh ExNum C) n v : attr_value m n v =
  match find (fun na => beq (fst na) n) (attrs_of m) with
  | Some (_, vals) => nth_error vals v
  | None => None
  end.
Proof.
  unfold attr_value, find_attr, attrs_of. induction (m_attrs m) as [|[k a] r IH]; [reflexivity|].
  cbn [find map fst snd]. destruct (beq k n); [reflexivity|exact IH].
Qed.

(** C09 is false: in a file made of two saved surfaces with the same property the values of the second
    surface overwrite those of the first, and its own vertices keep the no-data value. *)
Theorem C09_multi_object_attributes_refuted :
  exists (F : Num) (w1 w2 : wmesh F tri) (m1 m2 m : mesh F tri) (p : bytes),
    num_ok F /\ names_ok w1 /\ triangles_ok w1 /\ names_ok w2 /\ triangles_ok w2 /\
    read_ts F (write_ts w1) = Ok m1 /\ read_ts F (write_ts w2) = Ok m2 /\
    read_ts F (write_ts w1 ++ write_ts w2) = Ok m /\
    (exists v, (v < List.length (m_points m1))%nat /\ attr_value m p v <> attr_value m1 p v) /\
    (forall v, (v < List.length (m_points m2))%nat ->
       attr_value m p (List.length (m_points m1) + v) <> attr_value m2 p v).
Proof.
  destruct C04_C05_instance as [HF [Hn [Ht Hr]]].
  destruct (mesh_is_ok _ _ _ _ _ _ zzz_eqb_ok Hr) as [m1 [R1 [_ [P1 [_ A1]]]]].
  destruct (mesh_is_ok _ _ _ _ _ _ zzz_eqb_ok two_surfaces) as [m [R [_ [P [_ A]]]]].
  destruct (mesh_is_ok _ _ _ _ _ _ zzz_eqb_ok small_alone) as [m2 [R2 [_ [P2 [_ A2]]]]].
  exists ExNum, ex_surface, ex_small, m1, m2, m, (lit "my prop"). unfold tri in *.
  repeat (split; [first [assumption|apply ex_small_names|apply ex_small_triangles]|]). split.
  - exists 0%nat. rewrite P1. split; [simpl; lia|]. rewrite !attr_value_of, A, A1. vm_compute. discriminate.
  - intros v Hv. rewrite P1, P2 in *. rewrite !attr_value_of, A, A2.
    destruct v as [|[|[|v]]]; [| | |simpl in Hv; lia]; vm_compute; discriminate.
Qed.
Print Assumptions C09_multi_object_attributes_refuted.

(** What holds of C09: when what follows declares no property, every value of the first file stays on
    its own vertex.  Missing: properties declared by a later object (see the refutation). *)
Theorem C09_multi_object_attributes_partial :
  forall (F : Num) (ls1 ls2 : list bytes) (m1 m2 : mesh F tri),
    Forall (fun l => ~ In LF l) ls1 -> Forall (fun l => ~ In LF l) ls2 ->
    read_ts F (unlines ls1) = Ok m1 -> read_ts F (unlines ls2) = Ok m2 -> m_attrs m2 = [] ->
    Z.of_nat (List.length (m_points m1)) + Z.of_nat (List.length (m_points m2)) < 2 ^ 32 ->
    exists m, read_ts F (unlines (ls1 ++ ls2)) = Ok m /\ m_points m = m_points m1 ++ m_points m2 /\
      forall p v x, attr_value m1 p v = Some x -> attr_value m p v = Some x.
Proof.
  intros F ls1 ls2 m1 m2 L1 L2 H1 H2 Ha Ht.
  assert (Hag : agree F (m_attrs m1) (m_attrs m2)) by (rewrite Ha; intros p t t' _; discriminate).
  destruct (read_ts_glued F ls1 ls2 m1 m2 L1 L2 H1 H2 Ht Hag) as [m [M [[_ [G _]] [_ [_ [_ [E _]]]]]]].
  exists m. split; [assumption|]. split; [assumption|]. intros p v x. apply extends_value. now apply E.
Qed.
Print Assumptions C09_multi_object_attributes_refuted.
Print Assumptions C09_multi_object_attributes_partial.
Definition ex_bare : wmesh ExNum tri :=
  mkWmesh (F:=ExNum) None [(5, 5, 5); (6, 5, 5); (5, 6, 5)] [(2, 0, 1)] [].
Example C09_partial_instance :
  mesh_is zzz_eqb (read_ts ExNum (write_ts ex_bare)) None [(5, 5, 5); (6, 5, 5); (5, 6, 5)] [(2, 0, 1)] [] = true /\
  mesh_is zzz_eqb (read_ts ExNum (write_ts ex_surface ++ write_ts ex_bare)) (Some (lit "my surface"))
    [(0, 0, 0); (10, 0, -5); (0, 10, 7); (10, 10, 1); (5, 5, 5); (6, 5, 5); (5, 6, 5)]
    [(0, 1, 2); (2, 1, 3); (6, 4, 5)]
    [(lit "my prop", [[0]; [3]; [6]; [9]; [-99999]; [-99999]; [-99999]])] = true.
Proof. split; vm_compute; reflexivity. Qed.

(** C08 for curves: two files of PLine objects, the first one ending with END. *)
Theorem C08_pl_disjoint_union :
  forall (F : Num) (ls1 ls2 : list bytes) (m1 m2 : mesh F edge),
    Forall (fun l => ~ In LF l) ls1 -> Forall (fun l => ~ In LF l) ls2 ->
    (exists before, ls1 = before ++ [lit "END"]) ->
    read_pl F (unlines ls1) = Ok m1 -> read_pl F (unlines ls2) = Ok m2 ->
    Z.of_nat (List.length (m_points m1)) + Z.of_nat (List.length (m_points m2)) < 2 ^ 32 ->
    exists m, read_pl F (unlines (ls1 ++ ls2)) = Ok m /\ m_points m = m_points m1 ++ m_points m2 /\
      m_cells m = m_cells m1 ++
        map (fun e => (fst e + Z.of_nat (List.length (m_points m1)), snd e + Z.of_nat (List.length (m_points m1)))) (m_cells m2).
Proof.
  intros F ls1 ls2 m1 m2 L1 L2 [before E] H1 H2 Ht.
  assert (He : ends_with_END ls1) by (subst ls1; now exists before, (lit "END"), []).
  destruct (read_pl_glued F ls1 ls2 m1 m2 L1 L2 He H1 H2 Ht) as [m [M [_ [G1 G2]]]].
  exists m. split; [assumption|]. split; assumption.
Qed.
Print Assumptions C08_pl_disjoint_union.
(** C08 for point sets. *)
Theorem C08_vs_union :
  forall (F : Num) (ls1 ls2 : list bytes) (m1 m2 : mesh F unit),
    Forall (fun l => ~ In LF l) ls1 -> Forall (fun l => ~ In LF l) ls2 ->
    read_vs F (unlines ls1) = Ok m1 -> read_vs F (unlines ls2) = Ok m2 -> same_kinds [m1; m2] ->
    exists m, read_vs F (unlines (ls1 ++ ls2)) = Ok m /\ m_points m = m_points m1 ++ m_points m2.
Proof.
  intros F ls1 ls2 m1 m2 L1 L2 H1 H2 Hk.
  assert (Hag : agree F (m_attrs m1) (m_attrs m2)).
  { intros p t t' Hp Hp'. apply kind_in in Hp as [a [A1 <-]], Hp' as [a' [A2 <-]].
    apply (Hk m1 m2 p a a'); auto; [now left|right; now left]. }
  destruct (read_vs_glued F ls1 ls2 m1 m2 L1 L2 H1 H2 Hag) as [m [M [_ G]]]. eauto.
Qed.
Print Assumptions C08_vs_union.
Definition ex_pl (name : bytes) : list bytes :=
  [lit "GOCAD PLine 1"; lit "HEADER {"; lit "name:" ++ name; lit "}"; lit "ILINE"; lit "VRTX 3 0 0 0";
   lit "VRTX 4 1 0 0"; lit "VRTX 5 2 0 7"; lit "SEG 3 4"; lit "SEG 4 5"; lit "END"].
Example C08_pl_instance :
  mesh_is zz_eqb (read_pl ExNum (unlines (ex_pl "a" ++ ex_pl "b"))) (Some (lit "b"))
    [(0, 0, 0); (1, 0, 0); (2, 0, 7); (0, 0, 0); (1, 0, 0); (2, 0, 7)] [(0, 1); (1, 2); (3, 4); (4, 5)] [] = true.
Proof. vm_compute. reflexivity. Qed.
(** Without END at the end of the first file, the second object is swallowed by the first one and its
    segments join vertices of the first one. *)
Theorem C08_pl_without_END_refuted :
  exists (F : Num) (ls1 ls2 : list bytes) (m1 m2 m : mesh F edge),
    num_ok F /\ read_pl F (unlines ls1) = Ok m1 /\ read_pl F (unlines ls2) = Ok m2 /\
    read_pl F (unlines (ls1 ++ ls2)) = Ok m /\ m_points m = m_points m1 ++ m_points m2 /\
    m_cells m = m_cells m1 ++ m_cells m2 /\ m_cells m1 <> [] /\ m_cells m2 <> [].
Proof.
  assert (A1 : mesh_is zz_eqb (read_pl ExNum (unlines (removelast (ex_pl "a")))) (Some (lit "a"))
    [(0, 0, 0); (1, 0, 0); (2, 0, 7)] [(0, 1); (1, 2)] [] = true) by (vm_compute; reflexivity).
  assert (A2 : mesh_is zz_eqb (read_pl ExNum (unlines (ex_pl "b"))) (Some (lit "b"))
    [(0, 0, 0); (1, 0, 0); (2, 0, 7)] [(0, 1); (1, 2)] [] = true) by (vm_compute; reflexivity).
  assert (A3 : mesh_is zz_eqb (read_pl ExNum (unlines (removelast (ex_pl "a") ++ ex_pl "b"))) (Some (lit "a"))
    [(0, 0, 0); (1, 0, 0); (2, 0, 7); (0, 0, 0); (1, 0, 0); (2, 0, 7)] [(0, 1); (1, 2); (0, 1); (1, 2)] [] = true)
    by (vm_compute; reflexivity).
  destruct (mesh_is_ok _ _ _ _ _ _ zz_eqb_ok A1) as [m1 [R1 [_ [P1 [C1 _]]]]].
  destruct (mesh_is_ok _ _ _ _ _ _ zz_eqb_ok A2) as [m2 [R2 [_ [P2 [C2 _]]]]].
  destruct (mesh_is_ok _ _ _ _ _ _ zz_eqb_ok A3) as [m [R3 [_ [P3 [C3 _]]]]].
  exists ExNum, (removelast (ex_pl "a")), (ex_pl "b"), m1, m2, m.
  split; [apply ExNum_ok|]. split; [exact R1|]. split; [exact R2|]. split; [exact R3|].
  rewrite P1, P2, P3, C1, C2, C3. repeat split; discriminate.
Qed.
Print Assumptions C08_pl_without_END_refuted.
(** Without that condition C08 is false: two point sets whose property has one value in the first and two
    in the second load alone, but not together. *)
Definition ex_vs (size : bytes) (vals : bytes) : list bytes :=
  [lit "GOCAD VSet 1"; lit "HEADER {"; lit "name:a"; lit "}"; lit "PROPERTIES q"; lit "PROP_LEGAL_RANGES **none** **none**";
   lit "NO_DATA_VALUES -9"; lit "PROPERTY_CLASSES q"; lit "PROPERTY_KINDS unknown"; lit "PROPERTY_SUBCLASSES QUANTITY Float";
   lit "ESIZES " ++ size; lit "UNITS none"; lit "SUBVSET";
   lit "PVRTX 1 0 0 0 " ++ vals; lit "PVRTX 2 1 0 0 " ++ vals; lit "END"].
Theorem C08_other_size_refuted :
  exists (F : Num) (ls1 ls2 : list bytes) (m1 m2 : mesh F unit),
    num_ok F /\ Forall (fun l => ~ In LF l) ls1 /\ Forall (fun l => ~ In LF l) ls2 /\
    read_vs F (unlines ls1) = Ok m1 /\ read_vs F (unlines ls2) = Ok m2 /\
    read_vs F (unlines (ls1 ++ ls2)) = Throw ExData.
Proof.
  assert (A1 : mesh_is (fun _ _ => true) (read_vs ExNum (unlines (ex_vs "1" "7"))) (Some (lit "a"))
    [(0, 0, 0); (1, 0, 0)] [] [(lit "q", [[7]; [7]])] = true) by (vm_compute; reflexivity).
  assert (A2 : mesh_is (fun _ _ => true) (read_vs ExNum (unlines (ex_vs "2" "7 8"))) (Some (lit "a"))
    [(0, 0, 0); (1, 0, 0)] [] [(lit "q", [[7; 8]; [7; 8]])] = true) by (vm_compute; reflexivity).
  destruct (read_vs ExNum (unlines (ex_vs "1" "7"))) as [m1| | |] eqn:E1; try discriminate.
  destruct (read_vs ExNum (unlines (ex_vs "2" "7 8"))) as [m2| | |] eqn:E2; try discriminate.
  exists ExNum, (ex_vs "1" "7"), (ex_vs "2" "7 8"), m1, m2. split; [apply ExNum_ok|].
  split; [|split; [|split; [exact E1|split; [exact E2|]]]].
  - repeat (apply Forall_cons; [apply lineb_ok; reflexivity|]). constructor.
  - repeat (apply Forall_cons; [apply lineb_ok; reflexivity|]). constructor.
  - assert (T : match read_vs ExNum (unlines (ex_vs "1" "7" ++ ex_vs "2" "7 8")) with Throw ExData => true | _ => false end = true)
      by (vm_compute; reflexivity).
    destruct (read_vs ExNum (unlines (ex_vs "1" "7" ++ ex_vs "2" "7 8"))) as [|[]| |]; try discriminate. reflexivity.
Qed.
Print Assumptions C08_other_size_refuted.
