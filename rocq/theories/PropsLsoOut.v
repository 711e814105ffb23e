(** * C114: how loading a solid (.lso) ends; properties with the same name. *)
From Coq Require Import ZArith List Lia Bool Ascii String.
From Verif Require Import Base Text TextFacts GocadModel MeshModel TsModel Spec GocadFacts TsFacts StreamFacts
  PropsGocad Grammar GrammarFacts GocadSafe PropsGocadSafe LsoModel LsoFacts LsoRead LsoRound LsoEnds LsoAttrs LsoBlocks LsoOut ExNum ExCheck PropsLso.
Import ListNotations.
Local Open Scope string_scope.
Local Open Scope list_scope.
Local Open Scope Z_scope.

(** C114: a file of complete lines whose header lines are well shaped and whose lines after the headers fit (LsoOut.v) is loaded or refused. *)
Theorem C114_ends (F : Num) text : nl (open_text text) = true -> header_lines_ok (pending (open_text text)) ->
  (forall tp ls, lso_head F text = Ok (tp, ls) -> solid_fits (p_names tp = []) ls) ->
  (exists m, read_lso F text = Ok m) \/ (exists e, read_lso F text = Throw e).
Proof.
  intros N H HF. pose proof (read_lso_safe F text N H HF) as U. pose proof (read_lso_ends (F := F) text N) as E.
  destruct (read_lso F text) as [m|e| |]; [left|right|congruence|congruence]; eauto.
Qed.
Print Assumptions C114_ends.

(** ** Deciding the conditions *)
Fixpoint span (f : bytes -> bool) (ls : list bytes) : list bytes * list bytes :=
  match ls with
  | [] => ([], [])
  | l :: r => if f l then let '(a, b) := span f r in (l :: a, b) else ([], ls)
  end.
Definition vertex_startb (l : bytes) : bool := starts_with l "VRTX" || starts_with l "PVRTX".
Definition run_of (ls : list bytes) : option (list bytes * list bytes) :=
  match scan vertex_startb ls with
  | Some (l, r) => let '(a, b) := span (fun x => contains x "VRTX") r in Some (l :: a, b)
  | None => None
  end.
Lemma span_unique f a b : Forall (fun x => f x = true) a -> (forall l r, b = l :: r -> f l = false) -> span f (a ++ b) = (a, b).
Proof.
  intros H Hb. induction H as [|x a Hx _ IH]; cbn [app span].
  - destruct b as [|l r]; [reflexivity|]. cbn [span]. now rewrite (Hb l r eq_refl).
  - now rewrite Hx, IH.
Qed.
Lemma run_unique ls vl rest : vertex_run ls vl rest -> run_of ls = Some (vl, rest).
Proof.
  intros [[pre [-> HP]] [l [r [-> [HL HR]]]] HN]. unfold run_of.
  assert (E : scan vertex_startb (pre ++ (l :: r) ++ rest) = Some (l, r ++ rest)).
  { induction HP as [|x pre Hx _ IH]; cbn [app scan].
    - assert (vertex_startb l = true) as -> by (unfold vertex_startb; destruct HL as [-> | ->]; [reflexivity|apply orb_true_r]). reflexivity.
    - assert (vertex_startb x = false) as ->; [|exact IH]. unfold vertex_startb. unfold vertex_start in Hx.
      destruct (starts_with x "VRTX"); [exfalso; auto|]. destruct (starts_with x "PVRTX"); [exfalso; auto|reflexivity]. }
  rewrite E, span_unique by assumption. reflexivity.
Qed.
Definition after_of (kind : bytes) (ls : list bytes) : option (list bytes) :=
  match ls with
  | [] => Some []
  | l :: r => if starts_with l (lit "BEGIN_" ++ kind ++ lit "_REGION_INDICATORS")
              then option_map snd (scan (fun x => starts_with x (lit "END_" ++ kind ++ lit "_REGION_INDICATORS")) r)
              else Some ls
  end.
Lemma after_unique kind ls ls' : after_indicators kind ls ls' -> after_of kind ls = Some ls'.
Proof.
  unfold after_indicators, after_of. destruct ls as [|l r]; [now intros ->|]. destruct (starts_with l _); [|now intros ->].
  intros [e H]. apply first_line_scan in H. now rewrite H.
Qed.
(** The cells after the first one. *)
Fixpoint more_cells (fuel : nat) (ls : list bytes) : option (list cell * list bytes) :=
  match fuel, ls with
  | _, [] => Some ([], [])
  | S f, a :: r => if starts_with a "TETRA" then
                     match r with
                     | [] => None
                     | b :: r' => option_map (fun x => ((a, b) :: fst x, snd x)) (more_cells f r')
                     end
                   else Some ([], ls)
  | O, _ => None
  end.
Definition cells_of (ls : list bytes) : option (list cell * list bytes) :=
  match ls with
  | a :: b :: r => option_map (fun x => ((a, b) :: fst x, snd x)) (more_cells (List.length r) r)
  | _ => None
  end.
Lemma more_cells_ok fuel : forall ls cells after, more_cells fuel ls = Some (cells, after) ->
  ls = flat_map (fun c => [fst c; snd c]) cells ++ after /\ Forall (fun c => starts_with (fst c) "TETRA" = true) cells /\
  (forall l r, after = l :: r -> starts_with l "TETRA" = false).
Proof.
  induction fuel as [|fuel IH]; intros ls cells after E.
  - destruct ls; [|discriminate]. cbn [more_cells] in E. assert (cells = [] /\ after = []) as [-> ->] by (split; congruence). repeat split; [constructor|discriminate].
  - destruct ls as [|a r]; cbn [more_cells] in E.
    + assert (cells = [] /\ after = []) as [-> ->] by (split; congruence). repeat split; [constructor|discriminate].
    + destruct (starts_with a "TETRA") eqn:Ea.
      * destruct r as [|b r]; [discriminate|]. destruct (more_cells fuel r) as [[cs af]|] eqn:EM; [|discriminate]. cbn [option_map fst snd] in E.
        assert (cells = (a, b) :: cs /\ after = af) as [-> ->] by (split; congruence). destruct (IH _ _ _ EM) as [-> [H1 H2]].
        split; [reflexivity|]. split; [now constructor|assumption].
      * assert (cells = [] /\ after = a :: r) as [-> ->] by (split; congruence). split; [reflexivity|]. split; [constructor|]. intros l x H. now injection H as -> _.
Qed.
Lemma cells_of_ok ls cells after : cells_of ls = Some (cells, after) -> cells_run ls cells after.
Proof.
  unfold cells_of. destruct ls as [|a [|b r]]; try discriminate. destruct (more_cells (List.length r) r) as [[cs af]|] eqn:EM; [|discriminate]. cbn [option_map fst snd].
  intros E. assert (cells = (a, b) :: cs /\ after = af) as [-> ->] by (split; congruence). destruct (more_cells_ok _ _ _ _ EM) as [-> [H1 H2]].
  split; [reflexivity|exists (a, b), cs; auto|assumption].
Qed.
(** Word [k] of a line, when it is a number, is within the bounds. *)
Definition word_in (lo hi : Z) (l : bytes) (k : nat) : bool :=
  match nth_error (string_split l) k with
  | Some t => match string_to_index t with Ok n => (lo <=? n) && (n <=? hi) | _ => true end
  | None => true
  end.
Lemma word_in_ok lo hi l k n : word_in lo hi l k = true -> word l k n -> lo <= n <= hi.
Proof.
  unfold word_in. intros H [t [E1 E2]]. rewrite E1, E2 in H. apply andb_true_iff in H. destruct H as [A B]. apply Z.leb_le in A. apply Z.leb_le in B. lia.
Qed.
Definition wordsb (n : nat) (l : bytes) : bool := Nat.leb n (List.length (string_split l)).
Definition vertexb (np : Z) (l : bytes) : bool :=
  if starts_with l "SHARED" then wordsb 3 l && word_in 1 np l 2 else wordsb 5 l.
Fixpoint verticesb (before : list bytes) (vl : list bytes) : bool :=
  match vl with
  | [] => true
  | l :: r => vertexb (lenz (plain_lines before)) l && verticesb (before ++ [l]) r
  end.
Lemma verticesb_ok vl : forall before, verticesb before vl = true -> forall a l b, vl = a ++ l :: b -> vertex_fits (before ++ a) l.
Proof.
  induction vl as [|x vl IH]; intros before H a l b E; [destruct a; discriminate|]. cbn [verticesb] in H. apply andb_true_iff in H. destruct H as [H1 H2].
  destruct a as [|y a]; cbn [app] in E.
  - assert (x = l) as -> by congruence. rewrite app_nil_r. unfold vertexb in H1. unfold vertex_fits. destruct (starts_with l "SHARED").
    + apply andb_true_iff in H1. destruct H1 as [A B]. apply Nat.leb_le in A. split; [exact A|]. intros n W. eapply word_in_ok; eassumption.
    + now apply Nat.leb_le in H1.
  - assert (x = y /\ vl = a ++ l :: b) as [-> ->] by (split; congruence). replace (before ++ y :: a) with ((before ++ [y]) ++ a) by (now rewrite <- app_assoc).
    eapply IH; [exact H2|reflexivity].
Qed.
Definition cellb (n : Z) (c : cell) : bool := wordsb 5 (fst c) && wordsb 3 (snd c) && forallb (word_in 1 n (fst c)) [1; 2; 3; 4]%nat.
Lemma four k : (1 <= k <= 4)%nat -> In k [1; 2; 3; 4]%nat.
Proof. intros H. cbn [In]. lia. Qed.
Lemma cellb_ok n c : cellb n c = true -> cell_fits n c.
Proof.
  unfold cellb, cell_fits. intros H. apply andb_true_iff in H. destruct H as [H H3]. apply andb_true_iff in H. destruct H as [H1 H2].
  apply Nat.leb_le in H1. apply Nat.leb_le in H2. split; [exact H1|]. split; [exact H2|]. intros k m Hk W. rewrite forallb_forall in H3. eapply word_in_ok; [|exact W]. now apply H3, four.
Qed.
Definition lineb (np : Z) (l : bytes) : bool :=
  (if starts_with l "TRGL" then wordsb 4 l && forallb (word_in 1 np l) [1; 2; 3]%nat else true) &&
  (if starts_with l "MODEL_REGION" then wordsb 2 l else true).
Lemma lineb_ok np l : lineb np l = true -> (starts_with l "TRGL" = true -> triangle_fits np l) /\ (starts_with l "MODEL_REGION" = true -> has_words 2 l).
Proof.
  unfold lineb. intros H. apply andb_true_iff in H. destruct H as [H1 H2]. split; intros E; rewrite E in *.
  - apply andb_true_iff in H1. destruct H1 as [A B]. apply Nat.leb_le in A. split; [exact A|]. intros k n Hk W. rewrite forallb_forall in B. eapply word_in_ok; [|exact W]. apply B. cbn [In]. lia.
  - now apply Nat.leb_le in H2.
Qed.
Definition numbers_of (c : cell) : list Z :=
  flat_map (fun k => match nth_error (string_split (fst c)) k with Some t => match string_to_index t with Ok n => [n] | _ => [] end | None => [] end) [1; 2; 3; 4]%nat.
Lemma numbers_of_ok c n : cell_corner c n -> In n (numbers_of c).
Proof. intros [k [Hk [t [E1 E2]]]]. apply in_flat_map. exists k. split; [now apply four|]. rewrite E1, E2. now left. Qed.
Definition enough_cellsb (cells : list cell) (after : list bytes) : bool :=
  forallb (fun c => forallb (fun n => n <=? lenz cells) (numbers_of c)) cells &&
  forallb (fun l => if starts_with l "MODEL_REGION" then
     match nth_error (string_split l) 1 with
     | Some name => lenz (nodup Z.eq_dec (flat_map numbers_of (filter (cell_inb name) cells))) <=? lenz (filter (cell_inb name) cells)
     | None => true
     end else true) after.
Lemma enough_cellsb_ok cells after : enough_cellsb cells after = true -> cells_enough cells after.
Proof.
  unfold enough_cellsb. intros H. apply andb_true_iff in H. destruct H as [H1 H2]. rewrite forallb_forall in H1, H2. split.
  - intros c n Hc HN. specialize (H1 c Hc). rewrite forallb_forall in H1. apply numbers_of_ok, H1 in HN. now apply Z.leb_le in HN.
  - intros l name ns Hl E EN ND HI. specialize (H2 l Hl). rewrite E, EN in H2. apply Z.leb_le in H2. eapply Z.le_trans; [|exact H2].
    unfold lenz. apply inj_le. apply NoDup_incl_length; [assumption|]. intros n Hn. apply nodup_In. apply in_flat_map. destruct (HI n Hn) as [c [C1 [C2 C3]]].
    exists c. split; [|now apply numbers_of_ok]. apply filter_In. split; [assumption|]. unfold cell_inb. unfold cell_in in C2. rewrite C2. apply beq_refl.
Qed.
Definition solidb (no_tetra_property : bool) (ls : list bytes) : bool :=
  match run_of ls with
  | None => true
  | Some (vl, rest) =>
      verticesb [] vl &&
      match after_of "VERTEX" rest with
      | None => true
      | Some ls' => match cells_of ls' with
                    | None => false
                    | Some (cells, after) => forallb (cellb (lenz vl)) cells && forallb (lineb (lenz (plain_lines vl))) after &&
                                             (no_tetra_property || enough_cellsb cells after)
                    end
      end
  end.
Lemma solidb_ok b (P : Prop) ls : (b = true -> P) -> solidb b ls = true -> solid_fits P ls.
Proof.
  intros HB H. unfold solidb in H. split.
  - intros vl rest R. apply run_unique in R. rewrite R in H. apply andb_true_iff in H. destruct H as [H _]. exact (verticesb_ok vl [] H).
  - intros vl rest ls' R A. apply run_unique in R. rewrite R in H. apply after_unique in A. rewrite A in H. apply andb_true_iff in H. destruct H as [_ H].
    destruct (cells_of ls') as [[cells after]|] eqn:E; [|discriminate]. apply cells_of_ok in E. apply andb_true_iff in H. destruct H as [H H3]. apply andb_true_iff in H. destruct H as [H1 H2].
    exists cells, after. split; [exact E|]. split; [|split].
    + apply Forall_forall. intros c Hc. rewrite forallb_forall in H1. now apply cellb_ok, H1.
    + apply Forall_forall. intros l Hl. rewrite forallb_forall in H2. now apply lineb_ok, H2.
    + apply orb_true_iff in H3. destruct H3 as [H3|H3]; [left; auto|right; now apply enough_cellsb_ok].
Qed.
(** The property sections. *)
Fixpoint sectionb (p : bytes) (ls : list bytes) : bool :=
  match ls with
  | [] => true
  | l :: r =>
      (if starts_with l (p ++ lit "PROPERTIES") then
         match split_quotes l with Ok sl => sectionsb (pred (List.length sl)) (map (fun e => (p ++ fst e, snd e)) property_lines) r | _ => true end
       else true) && sectionb p r
  end.
Definition section_sizesb (p : bytes) (ls : list bytes) : bool :=
  forallb (fun l => negb (starts_with l (p ++ lit "ESIZES")) ||
    forallb (fun t => match string_to_index t with Ok v => (0 <=? v) && (v <? 256) | _ => true end) (string_split l)) ls.
Lemma sectionb_ok p ls : sectionb p ls = true -> section_ok p ls.
Proof.
  intros H2 pre. revert ls H2. induction pre as [|x pre IH]; intros ls H2 l post sl -> El Es; cbn [app sectionb] in H2.
  - rewrite El, Es in H2. apply andb_true_iff in H2 as [H2 _]. now apply sectionsb_ok.
  - apply andb_true_iff in H2 as [_ H2]. eapply IH; [exact H2|reflexivity|eassumption|eassumption].
Qed.
Lemma section_sizesb_ok p ls : section_sizesb p ls = true -> section_sizes p ls.
Proof.
  intros H3 l t v Hl El Ht Ev. unfold section_sizesb in H3. rewrite forallb_forall in H3. specialize (H3 l Hl). rewrite El in H3.
  cbn [negb orb] in H3. rewrite forallb_forall in H3. specialize (H3 t Ht). rewrite Ev in H3.
  apply andb_true_iff in H3 as [A B]. apply Z.leb_le in A. apply Z.ltb_lt in B. lia.
Qed.
Definition headersb (ls : list bytes) : bool :=
  forallb PropsGocadSafe.plainb ls && sectionb [] ls && section_sizesb [] ls && sectionb "TETRA_" ls && section_sizesb "TETRA_" ls.
Lemma headersb_ok ls : headersb ls = true -> header_lines_ok ls.
Proof.
  unfold headersb. intros H. apply andb_true_iff in H as [H H5]. apply andb_true_iff in H as [H H4]. apply andb_true_iff in H as [H H3]. apply andb_true_iff in H as [H1 H2].
  split; [apply Forall_forall; intros l Hl; rewrite forallb_forall in H1; now apply PropsGocadSafe.plainb_ok, H1|].
  split; [split; [now apply sectionb_ok|now apply section_sizesb_ok]|split; [now apply sectionb_ok|now apply section_sizesb_ok]].
Qed.
(** All of it, on a text. *)
Definition lso_fitsb (text : bytes) : bool :=
  nl (open_text text) && headersb (pending (open_text text)) &&
  match lso_head ExNum text with
  | Ok (tp, ls) => solidb (match p_names tp with [] => true | _ => false end) ls
  | _ => true
  end.
Definition lso_conditions (text : bytes) : Prop :=
  nl (open_text text) = true /\ header_lines_ok (pending (open_text text)) /\
  (forall tp ls, lso_head ExNum text = Ok (tp, ls) -> solid_fits (p_names tp = []) ls).
Lemma lso_fitsb_ok text : lso_fitsb text = true -> lso_conditions text.
Proof.
  unfold lso_fitsb. intros H. apply andb_true_iff in H as [H H3]. apply andb_true_iff in H as [H1 H2]. split; [exact H1|]. split; [now apply headersb_ok|].
  intros tp ls E. rewrite E in H3. eapply solidb_ok; [|exact H3]. destruct (p_names tp); [reflexivity|discriminate].
Qed.

(** ** Files meeting the conditions *)
(** The octahedron of PropsLso.v, with properties of the vertices and of the tetrahedra, is loaded, and so is a file
    with a copy of a vertex; a file with a coordinate that is not a number is refused. *)
Definition plain_solid (vs ts rest : list bytes) : bytes :=
  unlines ([lit "GOCAD LightTSolid 1"; lit "HEADER {"; lit "name:s"; lit "}"] ++ vs ++ ts ++ rest).
Definition four_vertices : list bytes := map lit ["VRTX 1 0 0 0"; "VRTX 2 1 0 0"; "VRTX 3 0 1 0"; "VRTX 4 0 0 1"].
Definition one_cell : list bytes := map lit ["TETRA 1 2 3 4"; "# CTETRA B none none none none"].
Definition one_surface : list bytes := map lit ["MODEL"; "SURFACE s"; "TFACE 1"; "KEYVERTICES 1 2 3"; "TRGL 1 2 3"; "MODEL_REGION B +1"; "END"].
Example C114_example_loaded : lso_conditions (unlines octahedron) /\ match read_lso ExNum (unlines octahedron) with Ok _ => true | _ => false end = true.
Proof. split; [apply lso_fitsb_ok; vm_compute; reflexivity|vm_compute; reflexivity]. Qed.
Example C114_example_copies :
  let t := plain_solid (four_vertices ++ [lit "SHAREDVRTX 5 1"; lit "BEGIN_VERTEX_REGION_INDICATORS"; lit "END_VERTEX_REGION_INDICATORS"])
             (one_cell ++ map lit ["TETRA 5 2 3 4"; "# CTETRA C none none none none"]) one_surface in
  lso_conditions t /\ match read_lso ExNum t with Ok _ => true | _ => false end = true.
Proof. split; [apply lso_fitsb_ok; vm_compute; reflexivity|vm_compute; reflexivity]. Qed.
Example C114_example_refused :
  let t := plain_solid (map lit ["VRTX 1 0 0 0"; "VRTX 2 1 0 zero"; "VRTX 3 0 1 0"; "VRTX 4 0 0 1"]) one_cell one_surface in
  lso_conditions t /\ is_Throw (read_lso ExNum t) = true.
Proof. split; [apply lso_fitsb_ok; vm_compute; reflexivity|vm_compute; reflexivity]. Qed.

(** ** Each condition is needed *)
(** The files differ from the first one, which is loaded, by one defect. *)
Definition lso_defects : list bytes :=
  [ (* nothing after the vertices *) plain_solid four_vertices [] [];
    (* a copy of vertex 0, of a vertex that is not yet defined, of a copy *)
    plain_solid (four_vertices ++ [lit "SHAREDVRTX 5 0"]) one_cell one_surface;
    plain_solid (four_vertices ++ [lit "SHAREDVRTX 5 5"]) one_cell one_surface;
    plain_solid (four_vertices ++ map lit ["SHAREDVRTX 5 1"; "SHAREDVRTX 6 5"]) one_cell one_surface;
    (* a copy without its vertex *) plain_solid (four_vertices ++ [lit "SHAREDVRTX 5"]) one_cell one_surface;
    (* a tetrahedron with an unknown vertex, with vertex 0, with three vertices *)
    plain_solid four_vertices (map lit ["TETRA 1 2 3 5"; "# CTETRA B none none none none"]) one_surface;
    plain_solid four_vertices (map lit ["TETRA 0 1 2 3"; "# CTETRA B none none none none"]) one_surface;
    plain_solid four_vertices (map lit ["TETRA 1 2 3"; "# CTETRA B none none none none"]) one_surface;
    (* a tetrahedron without its block, the last one without its second line *)
    plain_solid four_vertices (map lit ["TETRA 1 2 3 4"; "# CTETRA"]) one_surface;
    plain_solid four_vertices (one_cell ++ map lit ["TETRA 1 2 3 4"]) [];
    (* no tetrahedron *) plain_solid four_vertices [] one_surface;
    (* a triangle with an unknown vertex; with a copy; a region without name *)
    plain_solid four_vertices one_cell (map lit ["MODEL"; "SURFACE s"; "TFACE 1"; "KEYVERTICES 1 2 3"; "TRGL 1 2 5"; "MODEL_REGION B +1"; "END"]);
    plain_solid (four_vertices ++ [lit "SHAREDVRTX 5 1"]) one_cell (map lit ["MODEL"; "SURFACE s"; "TFACE 1"; "KEYVERTICES 1 2 3"; "TRGL 5 2 3"; "MODEL_REGION B +1"; "END"]);
    plain_solid four_vertices one_cell (map lit ["MODEL"; "SURFACE s"; "TFACE 1"; "KEYVERTICES 1 2 3"; "TRGL 1 2 3"; "MODEL_REGION"; "END"]) ].
Theorem C114_defects_refuted : lso_conditions (plain_solid four_vertices one_cell one_surface) /\ (exists m, read_lso ExNum (plain_solid four_vertices one_cell one_surface) = Ok m) /\
  forall t, In t lso_defects -> nl (open_text t) = true /\ header_lines_ok (pending (open_text t)) /\ read_lso ExNum t = UB.
Proof.
  split; [apply lso_fitsb_ok; vm_compute; reflexivity|]. split.
  - assert (H : match read_lso ExNum (plain_solid four_vertices one_cell one_surface) with Ok _ => true | _ => false end = true) by (vm_compute; reflexivity).
    destruct (read_lso _ _) as [m| | |]; try discriminate. now exists m.
  - assert (H : forallb (fun t => nl (open_text t) && headersb (pending (open_text t)) && is_UB (read_lso ExNum t)) lso_defects = true) by (vm_compute; reflexivity).
    intros t Ht. rewrite forallb_forall in H. specialize (H t Ht). apply andb_true_iff in H as [H H3]. apply andb_true_iff in H as [H1 H2].
    split; [exact H1|]. split; [now apply headersb_ok|now apply is_UB_ok].
Qed.
Print Assumptions C114_defects_refuted.
(** One tetrahedron with a property of the tetrahedra: see also C47_single_tetrahedron_refuted. *)
Theorem C114_cell_property_refuted : exists t, nl (open_text t) = true /\ header_lines_ok (pending (open_text t)) /\
  (forall tp ls, lso_head ExNum t = Ok (tp, ls) -> solid_fits True ls) /\ read_lso ExNum t = UB.
Proof.
  exists (unlines (single true)). split; [vm_compute; reflexivity|]. split; [apply headersb_ok; vm_compute; reflexivity|]. split.
  - assert (H : match lso_head ExNum (unlines (single true)) with Ok (_, ls) => solidb true ls | _ => true end = true) by (vm_compute; reflexivity).
    intros tp ls E. rewrite E in H. eapply solidb_ok; [|exact H]. auto.
  - apply is_UB_ok. vm_compute. reflexivity.
Qed.
Print Assumptions C114_cell_property_refuted.

(** ** Properties with the same name *)
Lemma make_attributes_types {V} vt count names : forall es ds vs nb mapping (l l' : list (bytes * attr V)),
  make_attributes vt count names es ds vs nb mapping l = Ok l' ->
  (forall j n e a, nth_error names j = Some n -> nth_error es j = Some e -> find_attr n l = Some a -> a_type a = attr_type e) /\
  (forall i j n e f, nth_error names i = Some n -> nth_error names j = Some n -> nth_error es i = Some e -> nth_error es j = Some f -> attr_type e = attr_type f).
Proof.
  induction names as [|x names IH]; intros es ds vs nb mapping l l' E; [split; intros [|?]; discriminate|]. cbn [make_attributes] in E.
  destruct es as [|e0 es]; [discriminate|]. destruct ds as [|d ds]; [discriminate|]. destruct vs as [|v vs]; [discriminate|].
  apply bind_ok in E. destruct E as [a0 [Ea E]]. apply bind_ok in E. destruct E as [w [_ E]]. destruct (IH _ _ _ _ _ _ _ E) as [H1 H2].
  assert (T0 : a_type a0 = attr_type e0 /\ forall a, find_attr x l = Some a -> a_type a = attr_type e0).
  { unfold find_or_create_in in Ea. destruct (vt && _); [discriminate|]. cbv zeta in Ea. destruct (find_attr x l) as [b|].
    - destruct (Z.eqb_spec (a_type b) (attr_type e0)) as [Hb|]; [|discriminate]. assert (a0 = b) as -> by congruence. split; [assumption|]. intros a Ha. congruence.
    - assert (a0 = mkAttr (attr_type e0) (repeat d (Z.to_nat e0)) (repeat (repeat d (Z.to_nat e0)) count)) as -> by congruence. split; [reflexivity|discriminate]. }
  destruct T0 as [T0 T1]. split.
  - intros [|j] n e a Hn He Ha; cbn [nth_error] in Hn, He.
    + assert (x = n /\ e0 = e) as [-> ->] by (split; congruence). auto.
    + destruct (beq x n) eqn:Ex.
      * apply beq_eq in Ex. subst n. rewrite (T1 a Ha). rewrite <- T0. change (a_type a0) with (a_type (mkAttr (a_type a0) (a_def a0) w)).
        apply (H1 j x e); auto. apply find_replace_same.
      * apply (H1 j n e); auto. rewrite find_replace_other; [assumption|]. intros ->. rewrite beq_refl in Ex. discriminate.
  - assert (HX : forall j e, nth_error names j = Some x -> nth_error es j = Some e -> attr_type e0 = attr_type e).
    { intros j e Hn He. rewrite <- T0. change (a_type a0) with (a_type (mkAttr (a_type a0) (a_def a0) w)). apply (H1 j x e); auto. apply find_replace_same. }
    intros [|i] [|j] n e f Hi Hj He Hf; cbn [nth_error] in *; [congruence| | |eapply (H2 i j); eassumption].
    + assert (x = n /\ e0 = e) as [-> ->] by (split; congruence). eapply HX; eassumption.
    + assert (x = n /\ e0 = f) as [-> ->] by (split; congruence). symmetry. eapply HX; eassumption.
Qed.
(** When a file with a region is loaded, two of its properties with the same name have the same number of components, if one of them has less than four. *)
Definition one_kind {V} (h : PropHeader V) : Prop :=
  forall i j n e f, nth_error (p_names h) i = Some n -> nth_error (p_names h) j = Some n ->
    nth_error (p_esizes h) i = Some e -> nth_error (p_esizes h) j = Some f -> 1 <= e <= 3 -> f = e.
Theorem C114_repeated_properties (F : Num) text (m : LsoIn F) crs vp tp :
  read_lso F text = Ok m -> lso_headers (F := F) text = Ok (crs, vp, tp) -> i_blocks m <> [] -> one_kind vp /\ one_kind tp.
Proof.
  intros E EH NB. unfold read_lso in E. unfold lso_headers in EH. destruct (goto_if _ (open_text text)) as [[l0|] s0]; [|discriminate].
  apply bind_ok in E. destruct E as [[t s1] [E1 E]]. rewrite E1 in EH. cbn [bind] in EH. apply bind_ok in E. destruct E as [[c s2] [E2 E]]. rewrite E2 in EH. cbn [bind] in EH.
  apply bind_ok in E. destruct E as [[v s3] [E3 E]]. rewrite E3 in EH. cbn [bind] in EH. apply bind_ok in E. destruct E as [[u s4] [E4 E]]. rewrite E4 in EH. cbn [bind] in EH.
  assert (v = vp /\ u = tp) as [-> ->] by (split; congruence). clear EH E1 E2 E3 E4. unfold lso_body in E.
  apply bind_ok in E. destruct E as [[line s5] [_ E]]. apply bind_ok in E. destruct E as [[[sv line2] s6] [_ E]]. apply bind_ok in E. destruct E as [[line3 s7] [_ E]].
  apply bind_ok in E. destruct E as [[[st line4] s8] [_ E]]. apply bind_ok in E. destruct E as [[line5 s9] [_ E]]. apply bind_ok in E. destruct E as [[line6 s10] [_ E]].
  destruct (getline line6 s10) as [[g line7] s11]. apply bind_ok in E. destruct E as [[[[ss hs] line8] s12] [_ E]]. apply bind_ok in E. destruct E as [[bs bad] [EB E]].
  assert (i_blocks m = bs) as HB by (assert (m = mkLsoIn t (lenz (sv_map sv)) (ss_surfs ss) hs bs (ss_inspect ss || bad)) as -> by congruence; reflexivity).
  rewrite HB in NB. clear HB E. cbn [lso_blocks] in EB. destruct (starts_with line8 "MODEL_REGION"); [|exfalso; apply NB; congruence].
  apply bind_ok in EB. destruct EB as [name [_ EB]]. apply bind_ok in EB. destruct EB as [[b bad1] [EB _]]. unfold build_block in EB.
  apply bind_ok in EB. destruct EB as [[us tets] [_ EB]]. apply bind_ok in EB. destruct EB as [va [EV EB]]. apply bind_ok in EB. destruct EB as [ta [ET _]].
  apply make_attributes_types in EV. apply make_attributes_types in ET. destruct EV as [_ EV]. destruct ET as [_ ET].
  assert (K : forall e f, 1 <= e <= 3 -> attr_type e = attr_type f -> f = e).
  { unfold attr_type. intros e f He. destruct (Z.leb_spec 1 e), (Z.leb_spec e 3); try lia. cbn [andb]. destruct ((1 <=? f) && (f <=? 3)); lia. }
  split; intros i j n e f Hi Hj Hei Hfj He; apply K; auto; [eapply (EV i j)|eapply (ET i j)]; eassumption.
Qed.
Print Assumptions C114_repeated_properties.
(** A file with the property p twice, of sizes [a] and [b]. *)
Definition twice (a b : bytes) (values : bytes) : bytes :=
  plain_solid (map lit ["PROPERTIES p p"; "PROP_LEGAL_RANGES **none** **none** **none** **none**"; "NO_DATA_VALUES -1 -2"; "PROPERTY_CLASSES p p"; "PROPERTY_KINDS k k";
      "PROPERTY_SUBCLASSES QUANTITY Float QUANTITY Float"] ++ [lit "ESIZES " ++ a ++ lit " " ++ b; lit "UNITS m m"] ++
    map (fun v => v ++ values) (map lit ["PVRTX 1 0 0 0 "; "PVRTX 2 1 0 0 "; "PVRTX 3 0 1 0 "; "PVRTX 4 0 0 1 "])) one_cell one_surface.
(** With the same size the values of the second one are kept; with different sizes the file is refused. *)
Definition attr_is (t : bytes) (vals : list (list Z)) : bool :=
  match read_lso ExNum t with
  | Ok m => match i_blocks m with
            | [r] => match find_attr "p" (r_vattrs r) with Some a => leqb (leqb Z.eqb) (a_vals a) vals | None => false end
            | _ => false
            end
  | _ => false
  end.
Example C114_example_repeated : attr_is (twice "1" "1" "7 8") [[8]; [8]; [8]; [8]] = true /\ lso_conditions (twice "1" "1" "7 8") /\
  is_Throw (read_lso ExNum (twice "1" "2" "7 8 9")) = true /\ lso_conditions (twice "1" "2" "7 8 9").
Proof.
  split; [vm_compute; reflexivity|]. split; [apply lso_fitsb_ok; vm_compute; reflexivity|]. split; [vm_compute; reflexivity|apply lso_fitsb_ok; vm_compute; reflexivity].
Qed.
