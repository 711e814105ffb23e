(** * The sections of a FEM file (C123), the sets of a model that can be saved (C124). *)
From Coq Require Import ZArith List Lia Bool Ascii String QArith Permutation.
From Verif Require Import Base Text TextFacts NumText FemModel FemSpec FemFacts FemText LsoFacts ExCheck ExFem PropsFem BrepFemModel PropsBrepFem PropsFemTotal.
Import ListNotations.
Local Open Scope string_scope.
Local Open Scope list_scope.
Local Open Scope Z_scope.

(** ** Specification *)
(** The lines that begin with something else than a blank: the headers of the sections. *)
Definition is_header (l : bytes) : bool := match l with [] => false | c :: _ => negb (isspace c) end.
Definition headers (lines : list bytes) : list bytes := filter is_header lines.
(** A name that makes a header: one line that begins with something else than a blank. *)
Definition header_name (n : bytes) : Prop := ~ In LF n /\ is_header n = true.
(** The headers of the sections that a solid must have. *)
Definition expected_headers (V : FemVal) (s : solid V) : list bytes :=
  map lit ["PROBLEM:"; "CLASS (v.7.202.18152)"; "DIMENS"; "SCALE"; "VARNODE"; "XYZCOOR"; "REF_DIS_I"; "X"; "Y"; "Z"]
  ++ map (f_name V) (filter (fun a => f_generic V a && negb (beq (f_name V a) (lit "points"))) (s_vattrs V s))
  ++ [lit "REF_DISE_I"]
  ++ map (f_name V) (filter (fun a => f_generic V a && negb (existsb (beq (f_name V a)) (map lit ["tetrahedron_vertices"; "tetrahedron_adjacents"; "geode_active"]))) (s_pattrs V s))
  ++ match s_block_vertex V s with Some _ => [lit "NODALSETS"] | None => [] end
  ++ match s_block_poly V s with Some _ => [lit "ELEMENTALSETS"] | None => [] end
  ++ [lit "GRAVITY"].

(** ** Lines *)
(** A line of content: one line, that begins with a blank. *)
Definition content (l : bytes) : Prop := is_line l /\ is_header l = false.
Lemma content_sp t : is_line t -> content (SP :: t).
Proof. intros H. split; [apply is_line_cons; [discriminate|assumption]|reflexivity]. Qed.
Lemma headers_content ls : Forall content ls -> headers ls = [].
Proof. induction 1 as [|l ls [_ H] _ IH]; [reflexivity|]. unfold headers. cbn [filter]. rewrite H. exact IH. Qed.
Lemma headers_app a b : headers (a ++ b) = headers a ++ headers b.
Proof. apply filter_app. Qed.
Lemma headers_header l ls : is_header l = true -> headers (l :: ls) = l :: headers ls.
Proof. intros H. unfold headers. cbn [filter]. now rewrite H. Qed.
Lemma headers_skip l ls : content l -> headers (l :: ls) = headers ls.
Proof. intros [_ H]. unfold headers. cbn [filter]. now rewrite H. Qed.
Lemma range_line s p : 0 <= s -> 0 <= p -> is_line (range_text s p).
Proof. intros. apply token_line. now apply range_text_token. Qed.
Lemma chunk_lines0 limit ids : Forall (fun e => 0 <= e) ids -> Forall is_line (format_range_chunks ids limit).
Proof.
  unfold format_range_chunks. destruct ids as [|e r]; [constructor|]. intros H.
  assert (A : forall st s p, 0 <= s -> 0 <= p -> is_line (fst st) /\ Forall is_line (snd st) ->
    is_line (fst (append_value limit st s p)) /\ Forall is_line (snd (append_value limit st s p))).
  { intros [c rs] s p Hs Hp [H1 H2]. cbn [fst snd] in *. unfold append_value. pose proof (range_line s p Hs Hp) as Ht.
    destruct (limit <? _); cbn [fst snd].
    - split; [assumption|]. apply Forall_app. split; [assumption|]. constructor; [assumption|constructor].
    - destruct c; cbn [fst snd]; [split; assumption|]. split; [|assumption].
      apply is_line_app; [assumption|]. apply is_line_cons; [discriminate|assumption]. }
  assert (B : forall es s p st, 0 <= s -> 0 <= p -> Forall (fun e => 0 <= e) es -> is_line (fst st) /\ Forall is_line (snd st) ->
    is_line (fst (range_loop limit es s p st)) /\ Forall is_line (snd (range_loop limit es s p st))).
  { induction es as [|x es IH]; intros s p st Hs Hp He Hst; cbn [range_loop]; [now apply A|].
    pose proof (Forall_inv He). pose proof (Forall_inv_tail He). cbn beta in *. destruct (x =? _); apply IH; auto; lia. }
  pose proof (Forall_inv H). pose proof (Forall_inv_tail H). cbn beta in *.
  destruct (B r e e ([], []) ltac:(lia) ltac:(lia) ltac:(assumption)) as [B1 B2]; [split; [intros []|constructor]|].
  destruct (range_loop limit r e e ([], [])) as [c rs]. cbn [fst snd] in *.
  destruct c; [assumption|]. apply Forall_app. split; [assumption|]. constructor; [assumption|constructor].
Qed.
Lemma write_chunks_content ids text limit : Forall (fun e => 0 <= e) ids -> is_line text -> Forall content (write_chunks ids text limit).
Proof.
  intros H T. unfold write_chunks. apply Forall_map. eapply Forall_impl; [|apply (chunk_lines0 limit _ H)]. intros c Hc.
  apply (content_sp (SP :: text ++ lit "  " ++ c ++ add_spaces 1)). apply is_line_cons; [discriminate|]. apply is_line_app; [assumption|].
  apply is_line_app; [apply lineb_ok; reflexivity|]. apply is_line_app; [assumption|]. apply lineb_ok. reflexivity.
Qed.

(** Tables of numbers that are not negative, with keys that satisfy [P]. *)
Section Table.
Context {K : Type} (eqb : K -> K -> bool) (P : K -> Prop).
Definition tidy (m : table (K := K)) : Prop := Forall (fun e => P (fst e) /\ Forall (fun i => 0 <= i) (snd e)) m.
Lemma tidy_push k e m : 0 <= e -> tidy m -> tidy (push_on eqb k e m).
Proof.
  intros He H. induction H as [|[k' es] m [H1 H2] H IH]; cbn [push_on]; [constructor|]. cbn [fst snd] in *. destruct (eqb k k'); constructor; auto.
  split; [assumption|]. cbn [snd]. apply Forall_app. split; [assumption|]. constructor; [assumption|constructor].
Qed.
Lemma tidy_add k e m : P k -> 0 <= e -> tidy m -> tidy (table_add eqb k e m).
Proof.
  intros Hk He H. unfold table_add. destruct (contains_key eqb k m); [now apply tidy_push|].
  apply Forall_app. split; [assumption|]. constructor; [|constructor]. split; [assumption|]. constructor; [assumption|constructor].
Qed.
Lemma tidy_get k m : tidy m -> Forall (fun i => 0 <= i) (table_get eqb k m).
Proof. intros H. induction H as [|[k' es] m [_ H] _ IH]; cbn [table_get]; [constructor|]. destruct (eqb k k'); assumption. Qed.
End Table.
Lemma add32_nonneg a b : 0 <= add32 a b.
Proof. apply wrap32_range. Qed.

Lemma foldM_keeps' {A S} (f : S -> A -> res S) (P : S -> Prop) l : (forall s a s', P s -> f s a = Ok s' -> P s') -> forall s s', P s -> foldM f l s = Ok s' -> P s'.
Proof. intros H. induction l as [|a l IH]; intros s s' Hs E; cbn [foldM] in E; [now injection E as <-|]. apply bind_ok in E as [s1 [E1 E]]. eapply IH; [|exact E]. eapply H; eassumption. Qed.
Lemma Forall_flat_map'' {A B} (P : B -> Prop) (f : A -> list B) l : (forall x, In x l -> Forall P (f x)) -> Forall P (flat_map f l).
Proof. intros H. induction l as [|x l IH]; [constructor|]. cbn [flat_map]. apply Forall_app. split; [apply H; now left|]. apply IH. intros y Y. apply H. now right. Qed.

Section Headers.
Context (V : FemVal) (HV : femval_ok V).
Lemma spaced_line (l : list Z) : is_line (flat_map (fun v => show (add32 v 1) ++ add_spaces 1) l).
Proof.
  induction l as [|v l IH]; [intros []|]. cbn [flat_map]. apply is_line_app; [|assumption].
  apply is_line_app; [apply show_line, add32_nonneg|apply lineb_ok; reflexivity].
Qed.
Lemma vos_line v : is_line (vos V v).
Proof. apply token_line, (vos_token V HV). Qed.
Lemma vfix_line v : is_line (vfix V v).
Proof. apply token_line, (vfix_token V HV). Qed.
Lemma coord_content m v : content (coord_line V m v).
Proof.
  unfold coord_line. apply (content_sp (lit "    " ++ vos V v ++ lit "  " ++ _)). apply is_line_app; [apply lineb_ok; reflexivity|].
  apply is_line_app; [apply vos_line|]. apply is_line_app; [apply lineb_ok; reflexivity|]. apply spaced_line.
Qed.
Lemma property_ok n a ls : header_name (f_name V a) -> write_property V n a = Ok ls -> headers ls = [f_name V a] /\ Forall is_line ls.
Proof.
  intros [N1 N2] H. unfold write_property in H. apply bind_ok in H as [m [H1 H]].
  assert (ls = f_name V a :: property_lines V m) as -> by congruence. clear H.
  assert (C : Forall content (property_lines V m)).
  { unfold property_lines. apply Forall_flat_map''. intros v _. apply write_chunks_content; [|apply vfix_line].
    apply (tidy_get _ (fun _ => True)). unfold create_attribute_distribution in H1.
    refine (foldM_keeps' _ (tidy (fun _ => True)) _ _ _ _ _ H1); [|constructor].
    intros m0 e m1 T E. apply bind_ok in E as [x [_ E]]. assert (m1 = table_add (veqb V) x (add32 e 1) m0) as -> by congruence.
    apply tidy_add; [exact I|apply add32_nonneg|assumption]. }
  rewrite headers_header, headers_content by assumption. split; [reflexivity|]. constructor; [exact N1|]. eapply Forall_impl; [|exact C]. intros l [L _]. exact L.
Qed.
Lemma properties_ok n (l : list (fattr V)) : forall lss, Forall (fun a => header_name (f_name V a)) l -> mapM (write_property V n) l = Ok lss ->
  headers (List.concat lss) = map (f_name V) l /\ Forall is_line (List.concat lss).
Proof.
  induction l as [|a l IH]; intros lss H E; cbn [mapM] in E.
  - assert (lss = []) as -> by congruence. split; [reflexivity|constructor].
  - apply bind_ok in E as [ls [E1 E]]. apply bind_ok in E as [r [E2 E]]. assert (lss = ls :: r) as -> by congruence. clear E. inversion H as [|? ? Ha Hl]; subst.
    apply property_ok in E1 as [P1 P2]; [|assumption]. destruct (IH r Hl E2) as [Q1 Q2]. cbn [List.concat map]. rewrite headers_app, P1, Q1. split; [reflexivity|]. now apply Forall_app.
Qed.
Lemma coord_dist_ok name d s : header_name name -> headers (write_coord_dist V name d s) = [name] /\ Forall is_line (write_coord_dist V name d s).
Proof.
  intros [N1 N2]. unfold write_coord_dist. set (m := coord_dist V d 0 (s_points V s) []).
  assert (C : Forall content (map (coord_line V m) (vsort V (map fst (viter V (list Z) m))))) by (apply Forall_map, Forall_forall; intros v _; apply coord_content).
  split; [rewrite headers_header, headers_content by assumption; reflexivity|]. constructor; [exact N1|]. eapply Forall_impl; [|exact C]. intros l [L _]. exact L.
Qed.
Lemma letter_name (t : bytes) : lineb t = true -> is_header t = true -> header_name t.
Proof. intros H1 H2. split; [exact (lineb_ok t H1)|exact H2]. Qed.
Lemma nodal_ok s ls : Forall (fun a => header_name (f_name V a)) (s_vattrs V s) -> write_ref_nodal_dist V s = Ok ls ->
  headers ls = map lit ["REF_DIS_I"; "X"; "Y"; "Z"] ++ map (f_name V) (filter (fun a => f_generic V a && negb (beq (f_name V a) (lit "points"))) (s_vattrs V s)) /\ Forall is_line ls.
Proof.
  intros H E. unfold write_ref_nodal_dist in E. apply bind_ok in E as [bl [E1 E]]. match type of E with Ok ?x = _ => assert (ls = x) as -> by congruence end. clear E.
  apply properties_ok in E1 as [P1 P2].
  2:{ apply Forall_forall. intros a Ha. apply filter_In in Ha as [Ha _]. rewrite Forall_forall in H. now apply H. }
  assert (C : content (SP :: show (3 + Z.of_nat (List.length (filter (vertex_exported V) (s_vattrs V s)))) ++ lit ", " ++ show (Z.of_nat (nb_vertices V s)) ++ lit ", 0")).
  { apply content_sp. apply is_line_app; [apply show_line; lia|]. apply is_line_app; [apply lineb_ok; reflexivity|]. apply is_line_app; [apply show_line; lia|apply lineb_ok; reflexivity]. }
  destruct (coord_dist_ok (lit "X") 0 s) as [X1 X2]; [apply letter_name; reflexivity|].
  destruct (coord_dist_ok (lit "Y") 1 s) as [Y1 Y2]; [apply letter_name; reflexivity|].
  destruct (coord_dist_ok (lit "Z") 2 s) as [Z1 Z2]; [apply letter_name; reflexivity|].
  split.
  - rewrite headers_header by reflexivity. rewrite headers_skip by exact C.
    unfold write_xyz_dist. rewrite !headers_app, X1, Y1, Z1, P1. reflexivity.
  - constructor; [apply lineb_ok; reflexivity|]. constructor; [apply C|]. unfold write_xyz_dist. repeat (apply Forall_app; split); assumption.
Qed.
Lemma show_int_line z : is_line (show_int z).
Proof.
  unfold show_int. destruct (Z.ltb_spec z 0); [apply is_line_cons; [discriminate|]|]; apply show_line; lia.
Qed.
Lemma poly_filter l : filter (poly_exported V) l
  = filter (fun a => f_generic V a && negb (existsb (beq (f_name V a)) (map lit ["tetrahedron_vertices"; "tetrahedron_adjacents"; "geode_active"]))) l.
Proof.
  apply filter_ext. intros a. unfold poly_exported. cbn [existsb map]. rewrite orb_false_r, !negb_orb, !andb_assoc. reflexivity.
Qed.
Lemma elements_ok s ls : Forall (fun a => header_name (f_name V a)) (s_pattrs V s) -> write_ref_element_dist V s = Ok ls ->
  headers ls = lit "REF_DISE_I" :: map (f_name V) (filter (fun a => f_generic V a && negb (existsb (beq (f_name V a)) (map lit ["tetrahedron_vertices"; "tetrahedron_adjacents"; "geode_active"]))) (s_pattrs V s))
  /\ Forall is_line ls.
Proof.
  intros H E. unfold write_ref_element_dist in E. rewrite poly_filter in E. apply bind_ok in E as [bl [E1 E]]. match type of E with Ok ?x = _ => assert (ls = x) as -> by congruence end. clear E.
  apply properties_ok in E1 as [P1 P2].
  2:{ apply Forall_forall. intros a Ha. apply filter_In in Ha as [Ha _]. rewrite Forall_forall in H. now apply H. }
  assert (C : content (SP :: show_int (nb_elem_att V s) ++ lit ", " ++ show (Z.of_nat (nb_polyhedra V s)) ++ lit ", 0")).
  { apply content_sp. apply is_line_app; [apply show_int_line|]. apply is_line_app; [apply lineb_ok; reflexivity|]. apply is_line_app; [apply show_line; lia|apply lineb_ok; reflexivity]. }
  split.
  - rewrite headers_header by reflexivity. rewrite headers_skip by exact C. now rewrite P1.
  - constructor; [apply lineb_ok; reflexivity|]. constructor; [apply C|assumption].
Qed.
Lemma nodal_sets_ok s ls : (forall names, s_block_vertex V s = Some names -> Forall (Forall is_line) names) -> write_nodal_sets V s = Ok ls ->
  headers ls = match s_block_vertex V s with Some _ => [lit "NODALSETS"] | None => [] end /\ Forall is_line ls.
Proof.
  intros H E. unfold write_nodal_sets in E. destruct (s_block_vertex V s) as [names|].
  2:{ assert (ls = []) as -> by congruence. split; [reflexivity|constructor]. }
  specialize (H names eq_refl). apply bind_ok in E as [m [E1 E]]. match type of E with Ok ?x = _ => assert (ls = x) as -> by congruence end. clear E.
  assert (T : tidy is_line m).
  { unfold vertex_region_map in E1. refine (foldM_keeps' _ (tidy is_line) _ _ _ _ _ E1); [|constructor].
    intros m0 v m1 T E. apply bind_ok in E as [ns [E2 E]]. assert (m1 = fold_left (fun m x => table_add beq x (add32 v 1) m) ns m0) as -> by congruence.
    assert (N : Forall is_line ns). { rewrite Forall_forall in H. apply H. unfold idxz in E2. destruct (nthz names v) as [x|] eqn:N; [|discriminate E2]. assert (ns = x) as -> by congruence. unfold nthz in N. destruct (_ && _); [|discriminate N]. apply nth_error_In in N. exact N. }
    clear - N T. revert m0 T. induction N as [|x ns Hx _ IH]; intros m0 T; [exact T|]. cbn [fold_left]. apply IH. apply tidy_add; [assumption|apply add32_nonneg|assumption]. }
  assert (C : Forall content (flat_map (fun e => write_chunks (snd e) (fst e) CHUNK_SIZE) (siter V (list Z) m))).
  { apply Forall_flat_map''. intros [k es] Hk. apply (Permutation_in _ (siter_perm V HV _ m)) in Hk. unfold tidy in T. rewrite Forall_forall in T. apply T in Hk as [K1 K2]. now apply write_chunks_content. }
  split; [rewrite headers_header by reflexivity; now rewrite headers_content by assumption|]. constructor; [apply lineb_ok; reflexivity|]. eapply Forall_impl; [|exact C]. intros l [L _]. exact L.
Qed.
Lemma element_sets_ok s ls : write_element_sets V s = Ok ls -> headers ls = match s_block_poly V s with Some _ => [lit "ELEMENTALSETS"] | None => [] end /\ Forall is_line ls.
Proof.
  unfold write_element_sets. destruct (s_block_poly V s).
  - destruct (nb_polyhedra V s); [|discriminate]. intros E. assert (ls = [lit "ELEMENTALSETS"]) as -> by congruence. split; [reflexivity|]. constructor; [apply lineb_ok; reflexivity|constructor].
  - intros E. assert (ls = []) as -> by congruence. split; [reflexivity|constructor].
Qed.
Lemma tetra_content vs : content (tetra_line vs).
Proof. unfold tetra_line. apply (content_sp (lit "6 " ++ _)). apply is_line_app; [apply lineb_ok; reflexivity|apply spaced_line]. Qed.
Lemma coord_text_content p : content (coord_text V p).
Proof.
  destruct p as [[x y] z]. unfold coord_text. apply content_sp. apply is_line_app; [apply vos_line|]. apply is_line_app; [apply lineb_ok; reflexivity|].
  apply is_line_app; [apply vos_line|]. apply is_line_app; [apply lineb_ok; reflexivity|]. apply vos_line.
Qed.
Lemma file_headers s text :
  Forall (fun a => header_name (f_name V a)) (s_vattrs V s) -> Forall (fun a => header_name (f_name V a)) (s_pattrs V s) ->
  (forall names, s_block_vertex V s = Some names -> Forall (Forall is_line) names) ->
  write_fem V s = Ok text ->
  exists lines section, text = unlines lines ++ section ++ lit "END" ++ [LF] /\ write_discrete_features V s = Ok section /\
    Forall is_line lines /\ headers lines = expected_headers V s.
Proof.
  intros H1 H2 H3 H. unfold write_fem in H. apply bind_ok in H as [nd [E1 H]]. apply bind_ok in H as [el [E2 H]]. apply bind_ok in H as [ns [E3 H]].
  apply bind_ok in H as [es [E4 H]]. apply bind_ok in H as [dfe [E5 H]].
  match type of H with Ok (unlines ?b ++ _) = _ => exists b, dfe; assert (E : text = unlines b ++ dfe ++ unlines [lit "END"]) by congruence end. clear H. split; [exact E|]. clear E.
  split; [exact E5|]. apply nodal_ok in E1 as [A1 B1]; [|assumption]. apply elements_ok in E2 as [A2 B2]; [|assumption]. apply nodal_sets_ok in E3 as [A3 B3]; [|assumption]. apply element_sets_ok in E4 as [A4 B4].
  assert (C1 : Forall content (map tetra_line (s_tetras V s))) by (apply Forall_map, Forall_forall; intros; apply tetra_content).
  assert (C2 : Forall content (map (coord_text V) (s_points V s))) by (apply Forall_map, Forall_forall; intros; apply coord_text_content).
  assert (D : content (SP :: show (Z.of_nat (nb_vertices V s)) ++ SP :: show (Z.of_nat (nb_polyhedra V s)) ++ lit " 0 1 0 0 0 0 0 1 0 0 0 0 0 0 0 0")).
  { apply content_sp. apply is_line_app; [apply show_line; lia|]. apply is_line_cons; [discriminate|]. apply is_line_app; [apply show_line; lia|apply lineb_ok; reflexivity]. }
  assert (D2 : content (SP :: show (Z.of_nat (nb_polyhedra V s)) ++ lit " 4 4")).
  { apply content_sp. apply is_line_app; [apply show_line; lia|apply lineb_ok; reflexivity]. }
  assert (L : forall l, Forall content l -> Forall is_line l) by (intros l C; eapply Forall_impl; [|exact C]; intros x [X _]; exact X).
  split.
  - repeat (apply Forall_app; split); try assumption; unfold write_dimension, write_var_node, write_node_coordinates.
    + repeat (apply Forall_cons; [apply lineb_ok; reflexivity|]). constructor.
    + constructor; [apply lineb_ok; reflexivity|]. constructor; [apply D|constructor].
    + constructor; [apply lineb_ok; reflexivity|]. constructor; [intros []|constructor].
    + constructor; [apply lineb_ok; reflexivity|]. constructor; [apply D2|now apply L].
    + constructor; [apply lineb_ok; reflexivity|]. now apply L.
    + constructor; [apply lineb_ok; reflexivity|]. constructor; [apply lineb_ok; reflexivity|constructor].
  - rewrite !headers_app, A1, A2, A3, A4. unfold write_dimension, write_var_node, write_node_coordinates.
    assert (U1 : headers [lit "DIMENS"; SP :: show (Z.of_nat (nb_vertices V s)) ++ SP :: show (Z.of_nat (nb_polyhedra V s)) ++ lit " 0 1 0 0 0 0 0 1 0 0 0 0 0 0 0 0"] = [lit "DIMENS"]) by reflexivity.
    assert (U2 : headers (lit "VARNODE" :: (SP :: show (Z.of_nat (nb_polyhedra V s)) ++ lit " 4 4") :: map tetra_line (s_tetras V s)) = [lit "VARNODE"]).
    { rewrite headers_header by reflexivity. now rewrite headers_content by (constructor; assumption). }
    assert (U3 : headers (lit "XYZCOOR" :: map (coord_text V) (s_points V s)) = [lit "XYZCOOR"]).
    { rewrite headers_header by reflexivity. now rewrite headers_content by assumption. }
    rewrite U1, U2, U3. unfold expected_headers. rewrite <- !app_assoc. reflexivity.
Qed.
End Headers.

(** C123. *)
Theorem C123_sections : forall (V : FemVal) (s : solid V) (text : bytes), femval_ok V ->
  Forall (fun a => header_name (f_name V a)) (s_vattrs V s ++ s_pattrs V s) ->
  (forall names, s_block_vertex V s = Some names -> Forall (Forall (fun n => ~ In LF n)) names) ->
  write_fem V s = Ok text ->
  exists lines section, text = unlines lines ++ section ++ lit "END" ++ [LF] /\ Forall (fun l => ~ In LF l) lines /\
    headers lines = expected_headers V s /\ (section = [] \/ exists doc, section = lit "DFE" ++ LF :: doc).
Proof.
  intros V s text HV H1 H2 H. apply Forall_app in H1 as [A B]. destruct (file_headers V HV s text A B H2 H) as [lines [section [E [D [L K]]]]].
  exists lines, section. split; [exact E|]. split; [exact L|]. split; [exact K|].
  unfold write_discrete_features in D. apply bind_ok in D as [f [_ D]]. destruct (nb_groups V f); [left; congruence|]. right.
  apply bind_ok in D as [p [_ D]]. match type of D with Ok (dfe_header ++ ?x) = _ => set (X := x) in *; assert (section = dfe_header ++ X) as -> by congruence end.
  exists (skipn 4 dfe_header ++ X). reflexivity.
Qed.
Print Assumptions C123_sections.

(** ** C124 *)
(** The blocks of each vertex of the model are the blocks whose mesh has that vertex: [uvs] gives, for each vertex of the model, the
    positions of its blocks, [place] its vertex in the solid. *)
Record same_vertices (V : FemVal) (nb : nat) (bs : list (bblock V)) (uvs : list (list Z)) (place : list Z) : Prop := {
  sv_place : List.length place = List.length uvs;
  sv_range : forall u v, nthz place u = Some v -> 0 <= v < Z.of_nat nb;
  sv_all : forall v, 0 <= v < Z.of_nat nb -> exists u, nthz place u = Some v;
  sv_once : forall u u' v, nthz place u = Some v -> nthz place u' = Some v -> u = u';
  sv_blocks : forall u v ks, nthz place u = Some v -> nthz uvs u = Some ks -> forall k, In k ks <-> exists b, nthz bs k = Some b /\ In v (l_vertices V b)
}.
Lemma listed_in {V} v (bs : list (bblock V)) : listed v bs <> [] <-> exists b, In b bs /\ In v (l_vertices V b).
Proof.
  split.
  - induction bs as [|b bs IH]; [intros H; now elim H|]. intros H. destruct (in_dec Z.eq_dec v (l_vertices V b)) as [I|N]; [exists b; split; [now left|assumption]|].
    destruct IH as [b' [B1 B2]].
    + intros E. apply H. unfold listed in *. cbn [flat_map]. rewrite E, app_nil_r. unfold times. destruct (filter (Z.eqb v) (l_vertices V b)) as [|x r] eqn:F; [reflexivity|].
      exfalso. apply N. assert (X : In x (filter (Z.eqb v) (l_vertices V b))) by (rewrite F; now left). apply filter_In in X as [X1 X2]. apply Z.eqb_eq in X2. now subst.
    + exists b'. split; [now right|assumption].
  - intros [b [B1 B2]]. apply in_split in B1 as [l1 [l2 ->]]. unfold listed. rewrite flat_map_app. cbn [flat_map].
    intros E. apply app_eq_nil in E as [_ E]. apply app_eq_nil in E as [E _]. unfold times in E.
    assert (X : In v (filter (Z.eqb v) (l_vertices V b))) by (apply filter_In; split; [assumption|apply Z.eqb_refl]).
    destruct (filter (Z.eqb v) (l_vertices V b)); [destruct X|]. discriminate E.
Qed.
Lemma in_nthz {A} (l : list A) x : In x l -> exists k, nthz l k = Some x.
Proof.
  intros H. apply In_nth_error in H as [n H]. exists (Z.of_nat n). now rewrite nthz_nat.
Qed.
(** The export accepts a model exactly when each vertex of the solid gets a block. *)
Theorem C124_accepted : forall (V : FemVal) nb (bs : list (bblock V)) uvs place names, same_vertices V nb bs uvs place -> paint_vertices V nb bs = Ok names ->
  (fem_saveable uvs = true <-> forall v, 0 <= v < Z.of_nat nb -> exists n ns, nthz names v = Some (n :: ns)).
Proof.
  intros V nb bs uvs place names W H. apply C90_vertices in H as [L H]. unfold fem_saveable. rewrite forallb_forall. split.
  - intros K v R. destruct (sv_all _ _ _ _ _ W v R) as [u U]. assert (Q : exists ks, nthz uvs u = Some ks).
    { apply nthz_in_range. rewrite <- (sv_place _ _ _ _ _ W). now apply nthz_range in U. }
    destruct Q as [ks Q]. pose proof (K ks (nthz_in _ _ _ Q)) as N. destruct ks as [|k ks]; [discriminate|].
    destruct (proj1 (sv_blocks _ _ _ _ _ W u v _ U Q k) (or_introl eq_refl)) as [b [B1 B2]].
    rewrite (H v R). assert (X : listed v bs <> []) by (apply listed_in; exists b; split; [now apply nthz_in in B1|assumption]).
    destruct (listed v bs) as [|n ns]; [now elim X|]. now exists n, ns.
  - intros K ks I. apply in_nthz in I as [u Q]. assert (U : exists v, nthz place u = Some v).
    { apply nthz_in_range. rewrite (sv_place _ _ _ _ _ W). now apply nthz_range in Q. }
    destruct U as [v U]. pose proof (sv_range _ _ _ _ _ W u v U) as R. destruct (K v R) as [n [ns N]]. rewrite (H v R) in N.
    assert (X : listed v bs <> []) by congruence. apply listed_in in X as [b [B1 B2]]. apply in_nthz in B1 as [k B1].
    assert (In k ks) as I by (apply (sv_blocks _ _ _ _ _ W u v ks U Q); now exists b). now destruct ks.
Qed.
Print Assumptions C124_accepted.
Lemma occurrences_all names : forall i v x ns, nthz names v = Some ns -> In x ns -> In (i + v, x) (occurrences i names).
Proof.
  induction names as [|a names IH]; intros i v x ns H I; [apply nthz_range in H; cbn in H; lia|]. rewrite nthz_cons in H. cbn [occurrences]. apply in_app_iff. destruct (Z.eqb_spec v 0) as [->|N].
  - left. assert (ns = a) as -> by congruence. apply in_map_iff. exists x. split; [f_equal; lia|assumption].
  - right. replace (i + v) with (i + 1 + (v - 1)) by lia. eapply IH; eassumption.
Qed.
(** In a model that is accepted, each vertex is in a nodal set. *)
Theorem C124_every_vertex_in_a_set : forall (V : FemVal) minus_one s0 facets edges (b : brep V) uvs place s, femval_ok V ->
  same_vertices V (nb_vertices V s0) (r_blocks V b) uvs place -> fem_saveable uvs = true ->
  Forall (fun k => token (name_or_uuid k)) (r_blocks V b) -> Z.of_nat (nb_vertices V s0) < 2 ^ 32 ->
  fem_solid V minus_one s0 facets edges b = Ok s ->
  exists lines, write_nodal_sets V s = Ok lines /\ forall v, 0 <= v < Z.of_nat (nb_vertices V s0) -> exists l, In l lines /\ In (v + 1) (entry_ids l).
Proof.
  intros V m1 s0 facets edges b uvs place s HV W K T N H. unfold fem_solid in H.
  apply bind_ok in H as [pa [_ H]]. apply bind_ok in H as [? [_ H]]. apply bind_ok in H as [po [_ H]]. apply bind_ok in H as [names [H3 H]]. apply bind_ok in H as [fp [_ H]]. apply bind_ok in H as [ep [_ H]].
  match type of H with Ok ?x = Ok _ => assert (E : s = x) by congruence end. clear H.
  pose proof (proj1 (C124_accepted V _ _ _ _ _ W H3) K) as A. pose proof (C90_vertices _ _ _ _ H3) as [L Q].
  destruct (C58_nodal_sets V s names HV) as [groups [G1 [G2 [G3 G4]]]].
  - now rewrite E.
  - rewrite L, E. reflexivity.
  - rewrite E. exact N.
  - apply Forall_forall. intros ns I. apply in_nthz in I as [v I]. pose proof (nthz_range _ _ _ I) as R. change (0 <= v < Z.of_nat (List.length names)) in R. rewrite L in R. rewrite (Q v R) in I.
    assert (ns = listed v (r_blocks V b)) as -> by congruence. clear - T. unfold listed. apply Forall_flat_map''. intros k Hk. rewrite Forall_forall in T. specialize (T k Hk).
    induction (times v (l_vertices V k)); constructor; auto.
  - exists (lit "NODALSETS" :: flat_map snd groups). split; [exact G1|]. intros v R. destruct (A v R) as [n [ns An]].
    assert (I : In (1 + v, n) (occurrences 1 names)) by (apply (occurrences_all names 1 v n _ An); now left).
    apply (Permutation_in _ (Permutation_sym G3)) in I. apply in_flat_map in I as [g [Ig I]]. apply in_map_iff in I as [e [E1 I]]. apply in_flat_map in I as [l [Il I]].
    exists l. split; [right; apply in_flat_map; now exists g|]. assert (v + 1 = e) as -> by (assert (e = 1 + v) by congruence; lia). exact I.
Qed.
Print Assumptions C124_every_vertex_in_a_set.

(** ** Examples *)
Definition ex_named : solid ExFem :=
  mkSolid ExFem [(0, 0, 0); (1, 0, 0); (0, 1, 0); (0, 0, 1)]%Q [[0; 1; 2; 3]] [mkFattr ExFem "points" true [0%Q]; mkFattr ExFem "head" true [2%Q]; mkFattr ExFem "zone" false []]
    [mkFattr ExFem "tetrahedron_vertices" false []; mkFattr ExFem "porosity" true [3%Q]; mkFattr ExFem "geode_active" true [1%Q]]
    (Some [[lit "b1"]; [lit "b1"]; [lit "b1"]; [lit "b1"]]) None None None.
Example C123_example : match write_fem ExFem ex_named with
    | Ok t => leqb beq (headers (text_lines t))
        (map lit ["PROBLEM:"; "CLASS (v.7.202.18152)"; "DIMENS"; "SCALE"; "VARNODE"; "XYZCOOR"; "REF_DIS_I"; "X"; "Y"; "Z"; "head"; "REF_DISE_I"; "porosity"; "NODALSETS"; "GRAVITY"; "END"])
    | _ => false end = true /\ Forall (fun a => header_name (f_name ExFem a)) (s_vattrs ExFem ex_named ++ s_pattrs ExFem ex_named)
  /\ Forall (Forall (fun n => ~ In LF n)) [[lit "b1"]; [lit "b1"]; [lit "b1"]; [lit "b1"]].
Proof.
  split; [vm_compute; reflexivity|]. split.
  - unfold ex_named. cbn [s_vattrs s_pattrs app]. repeat (apply Forall_cons; [cbn [f_name]; apply letter_name; reflexivity|]). constructor.
  - repeat (apply Forall_cons; [apply Forall_cons; [apply lineb_ok; reflexivity|constructor]|]). constructor.
Qed.
Example C124_example : same_vertices ExFem 6 ex_blocks [[0]; [0; 1]; [0; 1]; [0; 1]; [0]; [1]] [0; 1; 2; 3; 4; 5] /\ fem_saveable [[0]; [0; 1]; [0; 1]; [0; 1]; [0]; [1]] = true
  /\ Forall (fun k => token (name_or_uuid k)) ex_blocks /\ fem_saveable [[0]; []; [1]] = false.
Proof.
  assert (P : forall u v, nthz [0; 1; 2; 3; 4; 5] u = Some v -> u = v /\ 0 <= v < 6).
  { intros u v H. pose proof (nthz_range _ _ _ H) as R. change (0 <= u < 6) in R.
    assert (u = 0 \/ u = 1 \/ u = 2 \/ u = 3 \/ u = 4 \/ u = 5) as Q by lia. destruct Q as [->|[->|[->|[->|[->| ->]]]]]; cbn in H; injection H as <-; lia. }
  split; [|split; [reflexivity|split; [|reflexivity]]].
  - constructor.
    + reflexivity.
    + intros u v H. apply P in H as [_ H]. exact H.
    + intros v R. exists v. change (Z.of_nat 6) with 6 in R. assert (v = 0 \/ v = 1 \/ v = 2 \/ v = 3 \/ v = 4 \/ v = 5) as Q by lia. destruct Q as [->|[->|[->|[->|[->| ->]]]]]; reflexivity.
    + intros u u' v H H'. apply P in H as [-> _]. apply P in H' as [-> _]. reflexivity.
    + intros u v ks H Hk k. apply P in H as [-> R].
      assert (v = 0 \/ v = 1 \/ v = 2 \/ v = 3 \/ v = 4 \/ v = 5) as Q by lia.
      assert (B : forall b, nthz ex_blocks k = Some b -> k = 0 \/ k = 1) by (intros b Hb; apply nthz_range in Hb; change (0 <= k < 2) in Hb; lia).
      destruct Q as [->|[->|[->|[->|[->| ->]]]]]; cbn in Hk; injection Hk as <-; (split;
        [intros I; cbn [In] in I; repeat (destruct I as [<-|I]; [eexists; split; [reflexivity|]; cbn; tauto|]); destruct I
        |intros [b [B1 B2]]; destruct (B b B1) as [->| ->]; cbn in B1; injection B1 as <-; cbn in B2; cbn; (tauto || (exfalso; lia)) ]).
  - repeat (apply Forall_cons; [apply tokenb_ok; reflexivity|]). constructor.
Qed.
