(** * Round trips of TSurf and VSet files (C04, C05, C10). *)
From Coq Require Import ZArith List Lia Bool Ascii String.
From Verif Require Import Base Text TextFacts GocadModel MeshModel TsModel Spec GocadFacts TsFacts ExNum ExCheck.
Import ListNotations.
Local Open Scope string_scope.
Local Open Scope list_scope.
Local Open Scope Z_scope.

(** What a mesh must satisfy to be saved: a name on one line; clean, pairwise distinct attribute names. *)
Definition names_ok {F C} (m : wmesh F C) : Prop :=
  (forall n, wm_name m = Some n -> ~ In LF n) /\
  Forall (fun w => clean (w_name w)) (wm_attrs m) /\
  NoDup (map w_name (wm_attrs m)).
(** Every corner of every triangle is a vertex of the surface; vertices are numbered with 32 bits. *)
Definition triangles_ok {F} (m : wmesh F (Z * Z * Z)) : Prop :=
  let n := Z.of_nat (List.length (wm_points m)) in
  n <= 2 ^ 32 /\
  forall a b c, In (a, b, c) (wm_cells m) -> 0 <= a < n /\ 0 <= b < n /\ 0 <= c < n.

(** An attribute is saved when it is convertible to a number and is not the internal one. *)
Definition saved {F} (w : wattr F) : Prop := w_generic w = true /\ w_name w <> lit "points".

(** The loaded mesh carries exactly the saved attributes; vertex by vertex the value
    is the re-reading of the printed value. *)
Definition same_attributes {F C} (m : wmesh F C) (m' : mesh F C) : Prop :=
  (forall name, In name (map fst (m_attrs m')) <->
     exists w, In w (wm_attrs m) /\ saved w /\ w_name w = name) /\
  NoDup (map fst (m_attrs m')) /\
  (forall w, In w (wm_attrs m) -> saved w ->
     (exists a, find_attr (w_name w) (m_attrs m') = Some a /\
                List.length (a_vals a) = List.length (wm_points m)) /\
     forall v, (v < List.length (wm_points m))%nat ->
     exists x, reread_value F (w_val w v) x /\ attr_value m' (w_name w) v = Some [x]).

Lemma writable_of {F} (m : wmesh F tri) : names_ok m -> triangles_ok m -> writable F m.
Proof.
  intros [H1 [H2 H3]] [H4 H5]. constructor; auto.
  apply Forall_forall. intros [[a b] c] Hi. exact (H5 a b c Hi).
Qed.
Lemma reread_points_ok F ps : num_ok F -> Forall2 (reread_point F) ps (map (rp F) ps).
Proof. intros HF. induction ps as [|p ps IH]; constructor; auto. now apply reread_rp. Qed.

Lemma exported_saved {F} (w : wattr F) : exported w = true <-> saved w.
Proof.
  unfold exported, saved. rewrite andb_true_iff, negb_true_iff. rewrite beq_neq. reflexivity.
Qed.
Lemma reread_attributes_ok F C (m : wmesh F C) : num_ok F -> names_ok m ->
  same_attributes m (reread_mesh F m).
Proof.
  intros HF [_ [_ Hnd]]. unfold same_attributes.
  assert (N : map fst (m_attrs (reread_mesh F m)) = map w_name (filter exported (wm_attrs m))).
  { unfold reread_mesh. cbn [m_attrs]. rewrite map_map. reflexivity. }
  assert (D : NoDup (map fst (m_attrs (reread_mesh F m)))).
  { rewrite N. now apply filter_nodup. }
  split; [|split].
  - intros name. rewrite N, in_map_iff. split.
    + intros [w [E Hw]]. apply filter_In in Hw as [Hw He]. exists w. repeat split; auto; now apply exported_saved.
    + intros [w [Hw [Hs E]]]. exists w. split; auto. apply filter_In. split; auto. now apply exported_saved.
  - exact D.
  - intros w Hw Hs.
    assert (Fi : find_attr (w_name w) (m_attrs (reread_mesh F m))
                 = Some (snd (reread_attr F (List.length (wm_points m)) w))).
    { apply find_attr_in; auto. unfold reread_mesh. cbn [m_attrs].
      apply in_map_iff. exists w. split; [reflexivity|]. apply filter_In. split; auto. now apply exported_saved. }
    split.
    + eexists. split; [exact Fi|]. unfold reread_attr. cbn [snd a_vals]. now rewrite map_length, seq_length.
    + intros v Hv. exists (rv F (w_val w v)). split; [now apply rv_ok|].
      unfold attr_value. rewrite Fi. unfold reread_attr. cbn [snd a_vals].
      rewrite nth_error_map. rewrite nth_error_nth' with (d := 0%nat) by (rewrite seq_length; lia).
      rewrite seq_nth by lia. reflexivity.
Qed.

(** C04.  Saving then loading a surface keeps vertices (up to number printing) and triangles. *)
Theorem C04_ts_geometry_roundtrip :
  forall (F : Num) (m : wmesh F (Z * Z * Z)),
    num_ok F -> names_ok m -> triangles_ok m ->
    exists m', read_ts F (write_ts m) = Ok m' /\
      Forall2 (reread_point F) (wm_points m) (m_points m') /\
      m_cells m' = wm_cells m.
Proof.
  intros F m HF Hn Ht. exists (reread_mesh F m). split; [|split].
  - apply read_ts_written; auto. now apply writable_of.
  - now apply reread_points_ok.
  - reflexivity.
Qed.
Print Assumptions C04_ts_geometry_roundtrip.

(** C05.  Saving then loading a surface keeps its numeric attributes and its name; a clean
    name is kept unchanged, any other single-line name loses its quotes and repeated blanks. *)
Theorem C05_ts_attributes_roundtrip :
  forall (F : Num) (m : wmesh F (Z * Z * Z)),
    num_ok F -> names_ok m -> triangles_ok m ->
    exists m', read_ts F (write_ts m) = Ok m' /\
      same_attributes m m' /\
      m_name m' = option_map normalise (wm_name m) /\
      (forall n, wm_name m = Some n -> clean n -> m_name m' = Some n).
Proof.
  intros F m HF Hn Ht. exists (reread_mesh F m). split; [|split; [|split]].
  - apply read_ts_written; auto. now apply writable_of.
  - now apply reread_attributes_ok.
  - reflexivity.
  - intros n E Hc. unfold reread_mesh. cbn [m_name]. rewrite E. cbn [option_map].
    now rewrite normalise_clean.
Qed.
Print Assumptions C05_ts_attributes_roundtrip.

(** A surface with two triangles, a numeric attribute with a two-word name, an attribute that is
    not numeric and the internal one. *)
Definition ex_surface : wmesh ExNum tri :=
  mkWmesh (F:=ExNum) (Some (lit "my surface")) [(0, 0, 0); (10, 0, -5); (0, 10, 7); (10, 10, 1)]
    [(0, 1, 2); (2, 1, 3)]
    [mkWattr (F:=ExNum) (lit "points") true (fun _ => 0);
     mkWattr (F:=ExNum) (lit "my prop") true (fun v => 3 * Z.of_nat v);
     mkWattr (F:=ExNum) (lit "labels") false (fun _ => 0)].
Lemma ex_surface_names : names_ok ex_surface.
Proof.
  split; [|split].
  - intros n E. injection E as <-. apply lineb_ok. reflexivity.
  - repeat (apply Forall_cons; [apply cleanb_ok; reflexivity|]). constructor.
  - cbn [ex_surface wm_attrs map w_name]. repeat constructor; simpl; intuition discriminate.
Qed.
Lemma ex_surface_triangles : triangles_ok ex_surface.
Proof.
  split; [simpl; lia|]. intros a b c H. simpl in H.
  destruct H as [H|[H|[]]]; injection H as <- <- <-; simpl; lia.
Qed.
Example C04_C05_instance :
  num_ok ExNum /\ names_ok ex_surface /\ triangles_ok ex_surface /\
  mesh_is zzz_eqb (read_ts ExNum (write_ts ex_surface)) (Some (lit "my surface"))
    [(0, 0, 0); (10, 0, -5); (0, 10, 7); (10, 10, 1)] [(0, 1, 2); (2, 1, 3)]
    [(lit "my prop", [[0]; [3]; [6]; [9]])] = true.
Proof.
  repeat (split; [first [apply ExNum_ok|apply ex_surface_names|apply ex_surface_triangles]|]).
  vm_compute. reflexivity.
Qed.

(** C10.  Saving then loading a non-empty point set. *)
Theorem C10_vs_roundtrip_partial :
  forall (F : Num) (m : wmesh F unit),
    num_ok F -> names_ok m -> wm_cells m = [] -> wm_points m <> [] ->
    exists m', read_vs F (write_vs m) = Ok m' /\
      Forall2 (reread_point F) (wm_points m) (m_points m') /\
      same_attributes m m' /\
      m_name m' = option_map normalise (wm_name m) /\
      (forall n, wm_name m = Some n -> clean n -> m_name m' = Some n).
Proof.
  intros F m HF Hn Hc Hp. exists (reread_mesh F m). split; [|split; [|split; [|split]]].
  - apply read_vs_written; auto. destruct Hn as [H1 [H2 H3]]. constructor; auto.
  - now apply reread_points_ok.
  - now apply reread_attributes_ok.
  - reflexivity.
  - intros n E Hcl. unfold reread_mesh. cbn [m_name]. rewrite E. cbn [option_map].
    now rewrite normalise_clean.
Qed.
Print Assumptions C10_vs_roundtrip_partial.
Definition ex_set : wmesh ExNum unit :=
  mkWmesh (F:=ExNum) (Some (lit "pts")) [(1, 2, 3); (4, 5, -6)] []
    [mkWattr (F:=ExNum) (lit "my prop") true (fun v => 7 - Z.of_nat v)].
Example C10_instance :
  names_ok ex_set /\ wm_points ex_set <> [] /\
  mesh_is (fun _ _ => true) (read_vs ExNum (write_vs ex_set)) (Some (lit "pts"))
    [(1, 2, 3); (4, 5, -6)] [] [(lit "my prop", [[7]; [6]])] = true.
Proof.
  split; [split; [|split]|split; [discriminate|vm_compute; reflexivity]].
  - intros n E. injection E as <-. apply lineb_ok. reflexivity.
  - repeat (apply Forall_cons; [apply cleanb_ok; reflexivity|]). constructor.
  - repeat constructor; simpl; intuition.
Qed.

(** C10 is false for an empty point set: whatever its name and attributes, loading the saved
    file throws. *)
Theorem C10_vs_empty_refuted :
  exists (F : Num) (m : wmesh F unit), num_ok F /\ names_ok m /\ wm_cells m = [] /\
    read_vs F (write_vs m) = Throw ExData.
Proof.
  exists ExNum, (mkWmesh (F:=ExNum) None [] [] []). split; [apply ExNum_ok|].
  split; [split; [discriminate|split; constructor]|]. split; [reflexivity|].
  apply read_vs_empty; [apply ExNum_ok| |reflexivity].
  constructor; [discriminate|constructor|constructor|reflexivity].
Qed.
Print Assumptions C10_vs_empty_refuted.
Theorem C10_vs_empty_always_throws :
  forall (F : Num) (m : wmesh F unit), num_ok F -> names_ok m -> wm_cells m = [] ->
    wm_points m = [] -> read_vs F (write_vs m) = Throw ExData.
Proof.
  intros F m HF [H1 [H2 H3]] Hc Hp. apply read_vs_empty; auto. constructor; auto.
Qed.
Print Assumptions C10_vs_empty_always_throws.
