(** * C15 on whole files, property sections included. *)
From Coq Require Import ZArith List Lia Bool Ascii String.
From Verif Require Import Base Text TextFacts GocadModel MeshModel TsModel Spec GocadFacts TsFacts
  StreamFacts MultiFacts MultiMore PropsGocad GocadSafe ExNum ExCheck.
Import ListNotations.
Local Open Scope string_scope.
Local Open Scope list_scope.
Local Open Scope Z_scope.

Section Loads.
Context (F : Num).
Lemma read_vs_loop_safe f : forall (m : mesh F unit) s, file_ok (pending s) -> wf_attrs F m -> read_vs_loop f m s <> UB.
Proof.
  induction f as [|f IH]; intros m s H Hw; [discriminate|]. cbn [read_vs_loop].
  destruct (read_vs_points_safe F s H) as [N P]. apply bind_noub; [assumption|].
  intros [[vs|] s1] E; [|discriminate]. destruct (P _ _ E) as [[P1 [P2 P3]] P4].
  destruct (create_points_fields F (v_points vs) (set_name (v_name vs) m)) as [_ [Q2 _]].
  destruct (set_name_fields F (v_name vs) m) as [N1 [_ [N3 _]]].
  assert (W1 : wf_attrs F (create_points (v_points vs) (set_name (v_name vs) m))).
  { apply create_points_wf. unfold wf_attrs. now rewrite N3, N1. }
  unfold build_point_set, create_attributes. cbv zeta. apply bind_noub.
  - apply create_attributes_noub; auto. rewrite Q2, app_length. lia.
  - intros m1 E1. apply create_attributes_loop_fields in E1 as [_ [_ [_ D]]].
    apply IH; [|now apply D]. apply read_vs_points_suffix in E as [l S]. apply suffix_tl in S.
    eapply file_ok_suffix; eassumption.
Qed.

Lemma placed_in off ts : 0 <= off -> off + lenz (t_points ts) < two32 ->
  Forall (cell_in (lenz (t_points ts))) (t_triangles ts) -> Forall (cell_in (off + lenz (t_points ts))) (placed F off ts).
Proof.
  intros H1 H2 H. unfold placed. destruct (Z.eqb_spec off 0) as [->|_]; [exact H|].
  apply Forall_map. eapply Forall_impl; [|exact H]. intros [[a b] c] Hc. unfold cell_in, shift_tri in *.
  rewrite !add32_small by lia. lia.
Qed.
Lemma nb_app {C} (m m' : mesh F C) ps : m_points m' = m_points m ++ ps -> nb_vertices m' = nb_vertices m + lenz ps.
Proof. intros E. unfold nb_vertices, lenz. rewrite E, app_length. lia. Qed.
(** The objects a text contains, as the reader finds them one after the other. *)
Definition object_of {O} (read : istream -> res (option O * istream)) (text : bytes) (o : O) : Prop :=
  exists s s', suffix (pending s) (pending (open_text text)) /\ read s = Ok (Some o, s').
Lemma read_ts_loop_safe f : forall (m : mesh F tri) s, file_ok (pending s) -> wf_attrs F m ->
  nb_vertices m + Z.of_nat (List.length (pending s)) < two32 ->
  (forall s0 ts s', suffix (pending s0) (pending s) -> read_tsurf F s0 = Ok (Some ts, s') ->
     Forall (cell_in (lenz (t_points ts))) (t_triangles ts)) ->
  read_ts_loop f m s <> UB.
Proof.
  induction f as [|f IH]; intros m s H Hw Hn Hc; [discriminate|]. cbn [read_ts_loop].
  destruct (read_tsurf_safe F s H) as [N P]. apply bind_noub; [assumption|].
  intros [[ts|] s1] E; [|discriminate]. destruct (P _ _ E) as [[P1 [P2 P3]] [P4 P5]].
  destruct (create_points_fields F (t_points ts) (set_name (t_name ts) m)) as [_ [Q2 _]].
  destruct (set_name_fields F (t_name ts) m) as [N1 [_ [N3 _]]]. rewrite N1 in Q2.
  assert (W1 : wf_attrs F (create_points (t_points ts) (set_name (t_name ts) m))).
  { apply create_points_wf. unfold wf_attrs. now rewrite N3, N1. }
  assert (O : 0 <= nb_vertices m) by (unfold nb_vertices, lenz; lia).
  assert (L : nb_vertices m + lenz (t_points ts) + Z.of_nat (List.length (pending s1)) < two32) by (unfold lenz; lia).
  pose proof (Hc s ts s1 (suffix_refl _) E) as C0.
  apply placed_in with (off := nb_vertices m) in C0; [|assumption|lia].
  pose proof (nb_app _ _ _ Q2) as V. rewrite <- V in C0.
  destruct (create_triangles_ok F _ _ C0) as [m2 E2].
  pose proof (create_triangles_fields F _ _ _ E2) as [_ [T2 [_ [T4 _]]]].
  assert (U : build_surface m ts <> UB).
  { unfold build_surface, create_attributes. cbv zeta. fold (placed F (nb_vertices m) ts). rewrite E2. cbn [bind].
    apply create_attributes_noub; auto.
    - unfold wf_attrs. rewrite T4, T2. exact W1.
    - rewrite T2, Q2, app_length. lia. }
  apply bind_noub; [exact U|]. intros m1 E1. apply build_surface_fields in E1 as [_ [B2 [_ [_ B5]]]].
  apply read_tsurf_suffix in E as [l S]. apply suffix_tl in S.
  apply IH; [eapply file_ok_suffix; eassumption|now apply B5| |].
  - rewrite (nb_app _ _ _ B2). lia.
  - intros s0 o s' S0. apply Hc. eapply suffix_trans; eassumption.
Qed.
Lemma read_pl_loop_safe f : forall (m : mesh F edge) s, file_ok (pending s) ->
  nb_vertices m + Z.of_nat (List.length (pending s)) < two32 ->
  (forall s0 ec s', suffix (pending s0) (pending s) -> read_ecurve F s0 = Ok (Some ec, s') ->
     Forall (edge_in (lenz (e_points ec))) (e_edges ec)) ->
  read_pl_loop f m s <> UB.
Proof.
  induction f as [|f IH]; intros m s H Hn Hc; [discriminate|]. cbn [read_pl_loop].
  destruct (read_ecurve_safe F s H) as [N P]. apply bind_noub; [assumption|].
  intros [[ec|] s1] E; [|discriminate]. pose proof (P _ _ E) as P5.
  destruct (create_points_fields F (e_points ec) (set_name (e_name ec) m)) as [_ [Q2 _]].
  destruct (set_name_fields F (e_name ec) m) as [N1 _]. rewrite N1 in Q2.
  assert (O : 0 <= nb_vertices m) by (unfold nb_vertices, lenz; lia).
  assert (L : nb_vertices m + lenz (e_points ec) + Z.of_nat (List.length (pending s1)) < two32) by (unfold lenz; lia).
  pose proof (nb_app _ _ _ Q2) as V.
  assert (C0 : Forall (edge_in (nb_vertices (create_points (e_points ec) (set_name (e_name ec) m)))) (pl_placed F (nb_vertices m) ec)).
  { rewrite V. unfold pl_placed. apply Forall_map. eapply Forall_impl; [|exact (Hc s ec s1 (suffix_refl _) E)].
    intros [a b] Hc0. unfold edge_in in *. cbn [fst snd] in *. rewrite !add32_small by lia. lia. }
  destruct (create_edges_ok F _ _ C0) as [m1 E1].
  assert (B : build_curve m ec = Ok m1) by exact E1. rewrite B. cbn [bind].
  apply build_curve_fields in B as [_ [B2 _]].
  apply read_ecurve_suffix in E as [l S]. apply suffix_tl in S.
  apply IH; [eapply file_ok_suffix; eassumption| |].
  - rewrite (nb_app _ _ _ B2). lia.
  - intros s0 o s' S0. apply Hc. eapply suffix_trans; eassumption.
Qed.
End Loads.

(** C15, files whose lines are well shaped and whose property sections announce as many values as they
    have names: loading a point set is never undefined behaviour. *)
Theorem C15_point_sets_partial :
  forall (F : Num) (text : bytes), file_ok (pending (open_text text)) -> read_vs F text <> UB.
Proof. intros F text H. apply read_vs_loop_safe; [exact H|constructor]. Qed.
Print Assumptions C15_point_sets_partial.

(** Same for surfaces, when the triangles of every object use vertices of that object. *)
Theorem C15_surfaces_partial :
  forall (F : Num) (text : bytes), file_ok (pending (open_text text)) ->
    Z.of_nat (List.length (pending (open_text text))) < 2 ^ 32 ->
    (forall ts a b c, object_of (read_tsurf F) text ts -> In (a, b, c) (t_triangles ts) ->
       0 <= a < lenz (t_points ts) /\ 0 <= b < lenz (t_points ts) /\ 0 <= c < lenz (t_points ts)) ->
    read_ts F text <> UB.
Proof.
  intros F text H Hn Hc. apply read_ts_loop_safe; [exact H|constructor|exact Hn|].
  intros s0 ts s' S E. apply Forall_forall. intros [[a b] c] Hi. apply (Hc ts a b c); [exists s0, s'; auto|exact Hi].
Qed.
Print Assumptions C15_surfaces_partial.

(** Same for curves, when the segments of every object use vertices of that object. *)
Theorem C15_curves_partial :
  forall (F : Num) (text : bytes), file_ok (pending (open_text text)) ->
    Z.of_nat (List.length (pending (open_text text))) < 2 ^ 32 ->
    (forall ec a b, object_of (read_ecurve F) text ec -> In (a, b) (e_edges ec) ->
       0 <= a < lenz (e_points ec) /\ 0 <= b < lenz (e_points ec)) ->
    read_pl F text <> UB.
Proof.
  intros F text H Hn Hc. apply read_pl_loop_safe; [exact H|exact Hn|].
  intros s0 ec s' S E. apply Forall_forall. intros [a b] Hi. apply (Hc ec a b); [exists s0, s'; auto|exact Hi].
Qed.
Print Assumptions C15_curves_partial.

(** ** A file meeting the hypotheses *)
Fixpoint pairs_enoughb (n : nat) (ts : list bytes) : bool :=
  match n with
  | O => true
  | S m => match ts with
           | a :: _ :: r => pairs_enoughb m (if beq a "LINEARFUNCTION" then skipn 2 r else r)
           | _ => false
           end
  end.
Definition enoughb (n : nat) (k : kind) (l : bytes) : bool :=
  match k with
  | Strings => match split_quotes l with Ok sl => Nat.ltb n (List.length sl) | _ => false end
  | Numbers => Nat.ltb n (List.length (string_split l))
  | Pairs => pairs_enoughb n (tl (string_split l))
  end.
Fixpoint sectionsb (n : nat) (kws : list (bytes * kind)) (ls : list bytes) : bool :=
  match kws with
  | [] => true
  | (kw, k) :: r =>
      match scan (fun l => starts_with l kw) ls with
      | Some (l, post) => enoughb n k l && sectionsb n r post
      | None => true
      end
  end.
Fixpoint propertiesb (ls : list bytes) : bool :=
  match ls with
  | [] => true
  | l :: r =>
      (if starts_with l "PROPERTIES" then
         match split_quotes l with Ok sl => sectionsb (pred (List.length sl)) property_lines r | _ => true end
       else true) && propertiesb r
  end.
Definition sizesb (ls : list bytes) : bool :=
  forallb (fun l => negb (starts_with l "ESIZES") ||
    forallb (fun t => match string_to_index t with Ok v => (0 <=? v) && (v <? 256) | _ => true end) (string_split l)) ls.
(** Unquoted lines. *)
Definition plainb (l : bytes) : bool :=
  match string_split l with
  | k :: r => forallb (fun t => negb (beq t [QUOTE])) (k :: r) && Nat.leb (needed_words k) (List.length r)
  | [] => false
  end.
Lemma plainb_ok l : plainb l = true -> shaped l.
Proof.
  unfold plainb, shaped. destruct (string_split l) as [|k r]; [discriminate|]. intros H.
  apply andb_true_iff in H as [H1 H2]. exists k, r. split; [reflexivity|].
  assert (N : forall x, In x (k :: r) -> x <> [QUOTE]).
  { intros x Hx. rewrite forallb_forall in H1. specialize (H1 x Hx). apply negb_true_iff in H1. now apply beq_neq. }
  split; [apply N; now left|]. split; [|now apply Nat.leb_le].
  clear H1 H2. induction (k :: r) as [|x t IH]; [constructor|]. apply bal_tok; [apply N; now left|].
  apply IH. intros y Hy. apply N. now right.
Qed.
Lemma pairs_enoughb_ok n : forall ts, pairs_enoughb n ts = true -> pairs_enough n ts.
Proof. induction n as [|n IH]; intros ts H; [exact I|]. destruct ts as [|a [|b r]]; try discriminate. now apply IH. Qed.
Lemma enoughb_ok n k l : enoughb n k l = true -> enough n k l.
Proof.
  destruct k; cbn [enoughb enough]; intros H.
  - destruct (split_quotes l) as [sl| | |]; try discriminate. exists sl. split; [reflexivity|]. now apply Nat.ltb_lt.
  - now apply Nat.ltb_lt.
  - now apply pairs_enoughb_ok.
Qed.
Lemma first_line_scan kw ls l post : first_line kw ls l post -> scan (fun x => starts_with x kw) ls = Some (l, post).
Proof.
  intros [pre [-> [H1 H2]]]. induction H2 as [|x t Hx _ IH]; cbn [app scan]; [now rewrite H1|now rewrite Hx].
Qed.
Lemma sectionsb_ok n kws : forall ls, sectionsb n kws ls = true -> sections_enough n kws ls.
Proof.
  induction kws as [|[kw k] r IH]; intros ls H; [exact I|]. cbn [sectionsb sections_enough] in *. intros l post Hf.
  rewrite (first_line_scan _ _ _ _ Hf) in H. apply andb_true_iff in H as [H1 H2]. split; [now apply enoughb_ok|now apply IH].
Qed.
Lemma file_okb ls : forallb plainb ls && propertiesb ls && sizesb ls = true -> file_ok ls.
Proof.
  intros H. apply andb_true_iff in H as [H H3]. apply andb_true_iff in H as [H1 H2]. split; [|split].
  - apply Forall_forall. intros l Hl. rewrite forallb_forall in H1. apply plainb_ok, H1, Hl.
  - clear H1 H3. intros pre. revert ls H2. induction pre as [|x pre IH]; intros ls H2 l post sl -> El Es; cbn [app propertiesb] in H2.
    + rewrite El, Es in H2. apply andb_true_iff in H2 as [H2 _]. now apply sectionsb_ok.
    + apply andb_true_iff in H2 as [_ H2]. eapply IH; [exact H2|reflexivity|eassumption|eassumption].
  - intros l t v Hl El Ht Ev. unfold sizesb in H3. rewrite forallb_forall in H3. specialize (H3 l Hl). rewrite El in H3.
    cbn [negb orb] in H3. rewrite forallb_forall in H3. specialize (H3 t Ht). rewrite Ev in H3.
    apply andb_true_iff in H3 as [A B]. apply Z.leb_le in A. apply Z.ltb_lt in B. lia.
Qed.
Definition safe_lines (kind : bytes) (data : list bytes) : bytes :=
  unlines ([kind; lit "HEADER {"; lit "name:s"; lit "}";
    lit "GOCAD_ORIGINAL_COORDINATE_SYSTEM"; lit "NAME x"; lit "END_ORIGINAL_COORDINATE_SYSTEM";
    lit "PROPERTIES p q"; lit "PROP_LEGAL_RANGES **none** **none** **none** **none**"; lit "NO_DATA_VALUES -1 -2";
    lit "PROPERTY_CLASSES p q"; lit "PROPERTY_KINDS a b"; lit "PROPERTY_SUBCLASSES LINEARFUNCTION Float 1 0 QUANTITY Float";
    lit "ESIZES 1 3"; lit "UNITS m m"] ++ data).
(** A complete point set, and the same file cut in the middle of a row of values: loaded, refused. *)
Definition whole_vs := safe_lines "GOCAD VSet 1" [lit "PVRTX 1 0 0 0 7 1 2 3"; lit "PVRTX 2 1 0 0 8 4 5 6"; lit "END"].
Definition cut_vs := safe_lines "GOCAD VSet 1" [lit "PVRTX 1 0 0 0 7 1 2 3"; lit "PVRTX 2 1 0 0 8 4"].
Example C15_properties_instance :
  file_ok (pending (open_text whole_vs)) /\ file_ok (pending (open_text cut_vs)) /\
  (match read_vs ExNum whole_vs with Ok m => Nat.eqb (List.length (m_attrs m)) 2 | _ => false end = true) /\
  (match read_vs ExNum cut_vs with Throw _ => true | _ => false end = true).
Proof. split; [apply file_okb; vm_compute; reflexivity|]. split; [apply file_okb; vm_compute; reflexivity|]. split; vm_compute; reflexivity. Qed.
(** All the places of a file at which an object may start. *)
Fixpoint tails (ls : list bytes) : list (list bytes) := ls :: match ls with [] => [] | _ :: r => tails r end.
Lemma suffix_tails a b : suffix a b -> In a (tails b).
Proof.
  intros [p ->]. induction p as [|x p IH]; cbn [app]; [destruct a; now left|]. now right.
Qed.
Definition objectsb {O} (read : istream -> res (option O * istream)) (ok : O -> bool) (text : bytes) : bool :=
  forallb (fun t => forallb (fun b => match read (mkStream t b) with Ok (Some o, _) => ok o | _ => true end) [true; false])
          (tails (pending (open_text text))).
Lemma objectsb_ok {O} (read : istream -> res (option O * istream)) ok text o :
  objectsb read ok text = true -> object_of read text o -> ok o = true.
Proof.
  intros H [s [s' [S E]]]. apply suffix_tails in S. unfold objectsb in H. rewrite forallb_forall in H. specialize (H _ S).
  rewrite forallb_forall in H. destruct s as [t b]. cbn [pending] in H.
  specialize (H b). rewrite E in H. apply H. destruct b; cbn; auto.
Qed.
Definition inb (n a : Z) : bool := (0 <=? a) && (a <? n).
Lemma inb_ok n a : inb n a = true -> 0 <= a < n.
Proof. unfold inb. intros H. apply andb_true_iff in H as [A B]. apply Z.leb_le in A. apply Z.ltb_lt in B. lia. Qed.
Definition surf_inb (ts : TSurf ExNum) : bool :=
  forallb (fun t => let '(a, b, c) := t in let n := lenz (t_points ts) in inb n a && inb n b && inb n c) (t_triangles ts).
Definition curve_inb (ec : ECurve ExNum) : bool :=
  forallb (fun e => let n := lenz (e_points ec) in inb n (fst e) && inb n (snd e)) (e_edges ec).
Definition ts_object := [lit "TFACE"; lit "PVRTX 1 0 0 0 7 1 2 3"; lit "PVRTX 2 1 0 0 8 4 5 6";
  lit "PVRTX 3 0 1 0 8 4 5 6"; lit "TRGL 1 2 3"; lit "END"].
(** Two surfaces with properties. *)
Definition two_ts := safe_lines "GOCAD TSurf 1" ts_object ++ safe_lines "GOCAD TSurf 1" ts_object.
Example C15_surface_instance :
  file_ok (pending (open_text two_ts)) /\
  Z.of_nat (List.length (pending (open_text two_ts))) < 2 ^ 32 /\
  (forall ts a b c, object_of (read_tsurf ExNum) two_ts ts -> In (a, b, c) (t_triangles ts) ->
     0 <= a < lenz (t_points ts) /\ 0 <= b < lenz (t_points ts) /\ 0 <= c < lenz (t_points ts)) /\
  (match read_ts ExNum two_ts with Ok m => Nat.eqb (List.length (m_cells m)) 2 | _ => false end = true).
Proof.
  split; [apply file_okb; vm_compute; reflexivity|]. split; [vm_compute; reflexivity|]. split; [|vm_compute; reflexivity].
  intros ts a b c H Hi. apply (objectsb_ok _ surf_inb) in H; [|vm_compute; reflexivity].
  unfold surf_inb in H. rewrite forallb_forall in H. specialize (H _ Hi). cbv zeta beta iota in H.
  apply andb_true_iff in H as [H Hc]. apply andb_true_iff in H as [Ha Hb]. auto using inb_ok.
Qed.
Definition one_pl := safe_lines "GOCAD PLine 1" [lit "ILINE"; lit "VRTX 1 0 0 0"; lit "VRTX 2 1 0 0"; lit "SEG 1 2"; lit "END"].
Example C15_curve_instance :
  file_ok (pending (open_text one_pl)) /\
  Z.of_nat (List.length (pending (open_text one_pl))) < 2 ^ 32 /\
  (forall ec a b, object_of (read_ecurve ExNum) one_pl ec -> In (a, b) (e_edges ec) ->
     0 <= a < lenz (e_points ec) /\ 0 <= b < lenz (e_points ec)) /\
  (match read_pl ExNum one_pl with Ok m => Nat.eqb (List.length (m_cells m)) 1 | _ => false end = true).
Proof.
  split; [apply file_okb; vm_compute; reflexivity|]. split; [vm_compute; reflexivity|]. split; [|vm_compute; reflexivity].
  intros ec a b H Hi. apply (objectsb_ok _ curve_inb) in H; [|vm_compute; reflexivity].
  unfold curve_inb in H. rewrite forallb_forall in H. specialize (H _ Hi). cbv zeta in H. cbn [fst snd] in H.
  apply andb_true_iff in H as [Ha Hb]. auto using inb_ok.
Qed.

(** ** The conditions are needed *)
(** One value missing from ESIZES; one triangle corner without vertex. *)
Definition short_vs := unlines [lit "GOCAD VSet 1"; lit "HEADER {"; lit "}"; lit "PROPERTIES p q";
  lit "PROP_LEGAL_RANGES a a a a"; lit "NO_DATA_VALUES 0 0"; lit "PROPERTY_CLASSES p q"; lit "PROPERTY_KINDS p q";
  lit "PROPERTY_SUBCLASSES a a a a"; lit "ESIZES 1"; lit "UNITS m m"; lit "VRTX 1 0 0 0"; lit "END"].
Definition far_ts := unlines [lit "GOCAD TSurf 1"; lit "HEADER {"; lit "}"; lit "TFACE"; lit "VRTX 1 0 0 0";
  lit "VRTX 2 1 0 0"; lit "VRTX 3 0 1 0"; lit "TRGL 1 2 4"; lit "END"].
Theorem C15_short_properties_refuted :
  exists text, Forall shaped (pending (open_text text)) /\ sizes_ok (pending (open_text text)) /\ read_vs ExNum text = UB.
Proof.
  exists short_vs. split; [|split].
  - apply Forall_forall. intros l Hl. apply plainb_ok.
    assert (H : forallb plainb (pending (open_text short_vs)) = true) by (vm_compute; reflexivity).
    rewrite forallb_forall in H. now apply H.
  - assert (H : sizesb (pending (open_text short_vs)) = true) by (vm_compute; reflexivity).
    intros l t v Hl El Ht Ev. unfold sizesb in H. rewrite forallb_forall in H. specialize (H l Hl). rewrite El in H.
    cbn [negb orb] in H. rewrite forallb_forall in H. specialize (H t Ht). rewrite Ev in H. now apply inb_ok.
  - apply is_UB_ok. vm_compute. reflexivity.
Qed.
Print Assumptions C15_short_properties_refuted.
Theorem C15_missing_vertex_refuted :
  exists text, file_ok (pending (open_text text)) /\ read_ts ExNum text = UB.
Proof. exists far_ts. split; [apply file_okb; vm_compute; reflexivity|apply is_UB_ok; vm_compute; reflexivity]. Qed.
Print Assumptions C15_missing_vertex_refuted.
