(** * C106: a GOCAD structural model file, whoever wrote it, is loaded as the model it describes. *)
From Coq Require Import ZArith List Lia Bool Ascii String.
From Verif Require Import Base Text TextFacts Spec GocadModel GocadFacts MeshModel TsModel TsFacts MlModel MlFacts ExNum ExCheck
  Grammar GrammarFacts PropsGrammar GrammarMl GrammarMlFacts.
Import ListNotations.
Local Open Scope string_scope.
Local Open Scope list_scope.
Local Open Scope Z_scope.

Theorem C106_model3d :
  forall (F : Num) ls title cs (sheets : list (sheet F)),
    Forall is_line ls -> ml_says F ls title cs sheets -> consistent cs ->
    lenz (faces cs) + 1 + lenz (regions cs) < 2147483648 ->
    Forall2 (fun n s => lenz (positions cs n) = lenz (sh_sections s)) (tsurfs cs) sheets ->
    exists m, read_ml F (unlines ls) = Ok m /\ o_title m = title /\ o_surfaces m = map snd (faces cs) /\
      (exists colls extra, o_colls m = colls ++ extra /\ Forall2 (collection_is cs) (tsurfs cs) colls /\ others_are cs extra) /\
      Forall2 region_is (regions cs) (o_blocks m) /\
      Forall2 (unit_is (lenz (faces cs))) (layers cs) (o_units m) /\
      Forall2 (unit_is (lenz (faces cs))) (fault_blocks cs) (o_fblocks m) /\
      Forall2 face_mesh_is (numbered_sections cs (tsurfs cs) sheets) (o_meshes m).
Proof.
  intros F ls title cs sheets Hls (up & cl & last & rest & Ho & Hc & Hl & Hs) Hcs Hn Hp.
  unfold read_ml. rewrite open_unlines by assumption.
  destruct (object_head _ _ _ _ _ true Ho) as (crs & first & r & Hz & E1 & r' & E2 & E3); [now destruct cl|].
  rewrite E1, E2. cbn [bind]. rewrite E3. cbn [bind pending nl].
  destruct (components_read cs cl cs Hcs Hn Hc [] empty_st (last :: rest) eq_refl) as (st & Hst & R).
  { constructor; try reflexivity; constructor. }
  unfold read_components. rewrite (steps_loop _ _ _ _ _ Hst Hl) by (rewrite app_length; cbn; lia). cbn [bind].
  destruct (colls_read _ _ _ Hcs R) as (colls & extra & E4 & C1 & C2). rewrite E4. cbn [bind].
  destruct R as [R1 R2 R3 R4 R5 R6]. rewrite R1.
  destruct (build_sheets F cs true _ _ Hp rest Hs) as (ms & E5 & M). rewrite E5. cbn [bind].
  eexists. split; [reflexivity|]. cbn [o_title o_surfaces o_colls o_blocks o_units o_fblocks o_meshes].
  split; [reflexivity|]. split; [assumption|]. split; [eauto|]. auto.
Qed.
Print Assumptions C106_model3d.

(** ** Case: two horizons and a boundary whose second surface is not around the universe; sections with vertices shared by copy. *)
Definition ex_ml_components : list component :=
  [Tsurf (lit "h one"); Tsurf (lit "box"); Tface (lit "top") (lit "h one"); Tface (lit "top") (lit "h one");
   Tface (lit "boundary") (lit "box"); Tface (lit "boundary") (lit "box");
   Region (lit "Universe") [3]; Region (lit "b") [1; -3; 2; -2]; Layer (lit "l") [6]; Fault_block (lit "fb") [5; 6]].
Definition ex_ml_body : list bytes :=
  [lit "TSURF h one"; lit "TSURF box"; lit "TFACE 1 top h one"; lit "  0 0 0"; lit "TFACE 2 top h one"; lit "TFACE 3 boundary box";
   lit "TFACE 4 boundary box"; lit "REGION 5 Universe"; lit " 3 0"; lit "REGION 6 b"; lit " +1 -3"; lit " 2 -2 0"; lit "LAYER l"; lit " 6 0";
   lit "FAULT_BLOCK fb"; lit " 5 6 0 9"].
Definition ex_ml_data1 : list bytes :=
  [lit "VRTX 1 0 0 0"; lit "VRTX 2 1 0 0"; lit "VRTX 3 0 1 0"; lit "TRGL 1 2 3"; lit "TFACE"; lit "VRTX 4 5 5 5"; lit "ATOM 5 1"; lit "VRTX 6 1 1 1"; lit "TRGL 6 5 4"].
Definition ex_ml_data2 : list bytes := [lit "VRTX 7 0 0 0"; lit "TFACE"; lit "BSTONE 7"].
Definition ex_ml_rest2 : list bytes := [lit "GOCAD TSurf 1"; lit "HEADER {"; lit "}"; lit "TFACE"] ++ ex_ml_data2 ++ [lit "END"].
Definition ex_ml_rest : list bytes :=
  [lit "GOCAD TSurf 1"; lit "HEADER {"; lit "name: h one"; lit "}"; lit "TFACE"] ++ ex_ml_data1 ++ lit "END" :: ex_ml_rest2.
Definition ex_ml : list bytes := [lit "GOCAD Model3d 1"; lit "HEADER {"; lit "name: m"; lit "}"] ++ ex_ml_body ++ lit "END" :: ex_ml_rest.
Definition ex_ml_sheets : list (sheet ExNum) :=
  [mkSheet (Some (lit "h one"))
     [mkSection [plain_vertex 1 (0, 0, 0); plain_vertex 2 (1, 0, 0); plain_vertex 3 (0, 1, 0)] [(1, 2, 3)];
      mkSection [plain_vertex 4 (5, 5, 5); plain_vertex 5 (0, 0, 0); plain_vertex 6 (1, 1, 1)] [(6, 5, 4)]];
   mkSheet None [mkSection [plain_vertex 7 (0, 0, 0)] []; mkSection [] []]].

(** A property of all the components and of what surrounds them. *)
Fixpoint all_splits (P : list component -> component -> list component -> Prop) (a cs : list component) : Prop :=
  match cs with [] => True | c :: b => P a c b /\ all_splits P (a ++ [c]) b end.
Lemma splits_ok P cs : all_splits P [] cs -> forall a c b, cs = a ++ c :: b -> P a c b.
Proof.
  assert (G : forall cs pre, all_splits P pre cs -> forall a c b, cs = a ++ c :: b -> P (pre ++ a) c b).
  { clear cs. induction cs as [|x cs IH]; intros pre H a c b E; [now destruct a|]. destruct H as [H1 H2].
    destruct a as [|y a]; cbn [app] in E; injection E as -> ->; [now rewrite app_nil_r|].
    specialize (IH (pre ++ [y]) H2 a c b eq_refl). now rewrite <- app_assoc in IH. }
  intros H a c b E. exact (G cs [] H a c b E).
Qed.
Lemma ex_ml_consistent : consistent ex_ml_components.
Proof.
  constructor.
  - repeat constructor; cbn; intuition discriminate.
  - intros a f n b E. revert f n E. 
    pose proof (splits_ok (fun a c b => match c with Tface f n => In n (tsurfs a) | _ => True end) ex_ml_components) as H.
    intros f n E. refine (H _ a (Tface f n) b E). cbn. tauto.
  - cbn. intros f g n [H|[H|[H|[H|[]]]]] [K|[K|[K|[K|[]]]]]; congruence.
  - cbn [tsurfs ex_ml_components flat_map app]. intros n [<-|[<-|[]]].
    + exists (lit "top"), (KHorizon CConformal). split; cbn; tauto.
    + exists (lit "boundary"), KBoundary. split; cbn; tauto.
  - intros a n ids b E.
    refine (splits_ok (fun a c b => match c with Region n ids => Forall (fun i => 1 <= Z.abs i <= lenz (faces a)) ids /\
      (n <> lit "Universe" -> (2 <= List.length ids)%nat /\ forall k, (times k ids <= 2)%nat) | _ => True end) ex_ml_components _ a (Region n ids) b E).
    cbn -[times Z.abs Z.le lit]. repeat split; try tauto; try (repeat constructor; cbn; lia).
    intros k. unfold times. cbn [filter Z.abs]. destruct (Z.eqb_spec 1 k), (Z.eqb_spec 3 k), (Z.eqb_spec 2 k); cbn; lia.
  - intros a n ids b E.
    pose proof (splits_ok (fun a c b => match c with Layer n ids | Fault_block n ids => faces b = [] /\
      Forall (fun i => lenz (faces ex_ml_components) + 1 <= i <= lenz (faces ex_ml_components) + 1 + lenz (regions a)) ids | _ => True end) ex_ml_components) as H.
    destruct E as [E|E]; [refine (H _ a (Layer n ids) b E)|refine (H _ a (Fault_block n ids) b E)];
      cbn -[Z.le Z.add lenz]; repeat split; repeat constructor; vm_compute; discriminate.
Qed.

Lemma line_other kws l k more : string_split l = k :: more -> existsb (beq k) kws = false -> other_line kws l.
Proof.
  intros E H. exists k, more. split; [assumption|]. intros Hk. assert (existsb (beq k) kws = true); [|congruence].
  apply existsb_exists. exists k. split; [assumption|apply beq_refl].
Qed.
Lemma ex_ml_components_text : components_text ex_ml_body ex_ml_components.
Proof.
  unfold ex_ml_body, ex_ml_components.
  apply (ct_component [_]); [exists (lit "TSURF h one"), [lit "h"; lit "one"]; repeat split; reflexivity|reflexivity|].
  apply (ct_component [_]); [exists (lit "TSURF box"), [lit "box"]; repeat split; reflexivity|reflexivity|].
  apply (ct_component [_]); [exists (lit "TFACE 1 top h one"), (lit "1"), [lit "h"; lit "one"]; repeat split; reflexivity|reflexivity|].
  apply ct_other; [eapply line_other; reflexivity|reflexivity|].
  apply (ct_component [_]); [exists (lit "TFACE 2 top h one"), (lit "2"), [lit "h"; lit "one"]; repeat split; reflexivity|reflexivity|].
  apply (ct_component [_]); [exists (lit "TFACE 3 boundary box"), (lit "3"), [lit "box"]; repeat split; reflexivity|reflexivity|].
  apply (ct_component [_]); [exists (lit "TFACE 4 boundary box"), (lit "4"), [lit "box"]; repeat split; reflexivity|reflexivity|].
  apply (ct_component [_; _]); [exists (lit "REGION 5 Universe"), (lit "5"), [lit "Universe"], [lit " 3 0"]; repeat split; try reflexivity|reflexivity|].
  { exists [], (lit " 3 0"), [lit "3"], (lit "0"), [], [], [3]. repeat split; try reflexivity; repeat constructor; discriminate. }
  apply (ct_component [_; _; _]); [exists (lit "REGION 6 b"), (lit "6"), [lit "b"], [lit " +1 -3"; lit " 2 -2 0"]; repeat split; try reflexivity|reflexivity|].
  { exists [lit " +1 -3"], (lit " 2 -2 0"), [lit "2"; lit "-2"], (lit "0"), [], [[1; -3]], [2; -2]. repeat split; try reflexivity; repeat constructor; discriminate. }
  apply (ct_component [_; _]); [exists (lit "LAYER l"), [lit "l"], [lit " 6 0"]; repeat split; try reflexivity|reflexivity|].
  { exists [], (lit " 6 0"), [lit "6"], (lit "0"), [], [], [6]. repeat split; try reflexivity; repeat constructor; discriminate. }
  apply (ct_component [_; _]); [exists (lit "FAULT_BLOCK fb"), [lit "fb"], [lit " 5 6 0 9"]; repeat split; try reflexivity|reflexivity|constructor].
  exists [], (lit " 5 6 0 9"), [lit "5"; lit "6"], (lit "0"), [lit "9"], [], [5; 6]. repeat split; try reflexivity; repeat constructor; discriminate.
Qed.
Ltac pv := eapply plain_vertex_line; try reflexivity; cbn; tauto.
Lemma ex_ml_data1_says : sheet_data ExNum true [] ex_ml_data1 (sh_sections (hd (mkSheet None []) ex_ml_sheets)).
Proof.
  pose proof (hd_nil ExNum true []) as D.
  eapply (hd_vertex ExNum true [] _ [] _ _ (lit "VRTX 1 0 0 0") (plain_vertex 1 (0, 0, 0))) in D; [|pv|reflexivity].
  eapply (hd_vertex ExNum true [] _ [] _ _ (lit "VRTX 2 1 0 0") (plain_vertex 2 (1, 0, 0))) in D; [|pv|reflexivity].
  eapply (hd_vertex ExNum true [] _ [] _ _ (lit "VRTX 3 0 1 0") (plain_vertex 3 (0, 1, 0))) in D; [|pv|reflexivity].
  eapply (hd_triangle ExNum true [] _ [] _ _ (lit "TRGL 1 2 3") (1, 2, 3)) in D; [|exists (lit "1"), (lit "2"), (lit "3"), []; repeat split; reflexivity|discriminate].
  eapply (hd_section ExNum true [] _ _ (lit "TFACE") []) in D; [|reflexivity]. cbn [app] in D.
  match type of D with sheet_data _ _ _ _ [?x; _] => 
  eapply (hd_vertex ExNum true [] _ [x] _ _ (lit "VRTX 4 5 5 5") (plain_vertex 4 (5, 5, 5))) in D; [|pv|reflexivity];
  eapply (hd_atom ExNum true [] _ [x] _ _ (lit "ATOM 5 1") 1 (plain_vertex 1 (0, 0, 0)) (plain_vertex 5 (0, 0, 0))) in D;
    [|exists (lit "ATOM"), (lit "5"), (lit "1"), []; repeat split; try reflexivity; [cbn; tauto|constructor|exists [], []; split; [reflexivity|constructor]]
     |reflexivity|cbn; tauto|reflexivity|reflexivity];
  eapply (hd_vertex ExNum true [] _ [x] _ _ (lit "VRTX 6 1 1 1") (plain_vertex 6 (1, 1, 1))) in D; [|pv|reflexivity];
  eapply (hd_triangle ExNum true [] _ [x] _ _ (lit "TRGL 6 5 4") (6, 5, 4)) in D; [|exists (lit "6"), (lit "5"), (lit "4"), []; repeat split; reflexivity|discriminate]
  end.
  exact D.
Qed.
Lemma ex_ml_data2_says : sheet_data ExNum true [] ex_ml_data2 [mkSection [plain_vertex 7 (0, 0, 0)] []; mkSection [] []].
Proof.
  pose proof (hd_nil ExNum true []) as D.
  eapply (hd_vertex ExNum true [] _ [] _ _ (lit "VRTX 7 0 0 0") (plain_vertex 7 (0, 0, 0))) in D; [|pv|reflexivity].
  eapply (hd_section ExNum true [] _ _ (lit "TFACE") []) in D; [|reflexivity].
  eapply (hd_stone ExNum true [] _ _ (lit "BSTONE 7")) in D; [|left; exists (lit "7"), [], 7; split; reflexivity].
  exact D.
Qed.
Definition declared_b (vs : list (vertex ExNum)) (n : Z) : bool := existsb (fun v => vx_number v =? n) vs.
Lemma declared_b_ok vs n : declared_b vs n = true -> declared vs n.
Proof. intros H. apply existsb_exists in H as (v & Hv & E). exists v. split; [assumption|now apply Z.eqb_eq]. Qed.
Lemma ex_ml_says : ml_says ExNum ex_ml (Some (lit "m")) ex_ml_components ex_ml_sheets.
Proof.
  exists true, ex_ml_body, (lit "END"), ex_ml_rest. split; [|split; [exact ex_ml_components_text|split; [reflexivity|]]].
  { exists [], (lit "GOCAD Model3d 1"), [lit "HEADER {"; lit "name: m"; lit "}"], []. split; [reflexivity|]. split; [constructor|]. split; [reflexivity|]. split; [|split; [now left|intros _; reflexivity]].
    exists (lit "HEADER {"), [lit "name: m"], (lit "}"). split; [reflexivity|]. split; [reflexivity|]. split; [repeat constructor|]. split; [reflexivity|].
    right. exists [], (lit "name: m"), [], (lit " m"). repeat split; try reflexivity. constructor. }
  cbn [sheets_text ex_ml_sheets]. exists ex_ml_rest2. split; [|exists []; split; [|exact I]].
  - exists true, [], [], (lit "TFACE"), ex_ml_data1, (lit "END"). cbn [sh_name sh_sections]. split; [|split; [constructor|]].
    + exists []. split; [|split; [now left|reflexivity]].
      exists [], (lit "GOCAD TSurf 1"), [lit "HEADER {"; lit "name: h one"; lit "}"], []. split; [reflexivity|]. split; [constructor|]. split; [reflexivity|]. split; [|split; [now left|intros _; reflexivity]].
      exists (lit "HEADER {"), [lit "name: h one"], (lit "}"). split; [reflexivity|]. split; [reflexivity|]. split; [repeat constructor|]. split; [reflexivity|].
      right. exists [], (lit "name: h one"), [], (lit " h one"). repeat split; try reflexivity. constructor.
    + split; [reflexivity|]. split; [exact ex_ml_data1_says|]. split; [now exists []|]. split; [constructor|].
      apply Forall_cons; [|apply Forall_cons; [|constructor]]; apply Forall_cons; try apply Forall_nil; repeat split; apply declared_b_ok; reflexivity.
  - exists true, [], [], (lit "TFACE"), ex_ml_data2, (lit "END"). cbn [sh_name sh_sections]. split; [|split; [constructor|]].
    + exists []. split; [|split; [now left|reflexivity]].
      exists [], (lit "GOCAD TSurf 1"), [lit "HEADER {"; lit "}"], []. split; [reflexivity|]. split; [constructor|]. split; [reflexivity|]. split; [|split; [now left|intros _; reflexivity]].
      exists (lit "HEADER {"), [], (lit "}"). split; [reflexivity|]. split; [reflexivity|]. split; [constructor|]. split; [reflexivity|]. left. split; [reflexivity|constructor].
    + split; [reflexivity|]. split; [exact ex_ml_data2_says|]. split; [now exists []|]. split; [constructor|].
      apply Forall_cons; [|apply Forall_cons; [|constructor]]; constructor.
Qed.
Definition ml_summary (r : res (MlIn ExNum)) :=
  match r with
  | Ok m => Some (o_title m, o_surfaces m, map (fun c => (ci_kind c, ci_name c, ci_surfaces c)) (o_colls m), o_units m, o_fblocks m,
      map (fun b => (bi_name b, bi_boundaries b, bi_internals b)) (o_blocks m),
      map (fun m : Z * mesh ExNum tri => (fst m, (m_points (snd m) : list (Z * Z * Z)), m_cells (snd m))) (o_meshes m))
  | _ => None
  end.
Example C106_example : ml_summary (read_ml ExNum (unlines ex_ml)) =
  Some (Some (lit "m"), [lit "h one"; lit "h one"; lit "box"; lit "box"],
    [(KHorizon CConformal, lit "h one", [0; 1]); (KBoundary, lit "box", [2; 3]); (KBoundary, lit "undefined boundary", [3])],
    [(lit "l", [0])], [(lit "fb", [0])], [(lit "b", [0; 2], [1])],
    [(0, [(0, 0, 0); (1, 0, 0); (0, 1, 0)], [(0, 1, 2)]); (1, [(5, 5, 5); (0, 0, 0); (1, 1, 1)], [(2, 1, 0)]); (2, [(0, 0, 0)], []); (3, [], [])]).
Proof. vm_compute. reflexivity. Qed.
Example C106_example_says : exists m, read_ml ExNum (unlines ex_ml) = Ok m /\ Forall2 region_is (regions ex_ml_components) (o_blocks m) /\
  Forall2 face_mesh_is (numbered_sections ex_ml_components (tsurfs ex_ml_components) ex_ml_sheets) (o_meshes m).
Proof.
  destruct (C106_model3d ExNum ex_ml (Some (lit "m")) ex_ml_components ex_ml_sheets) as (m & E & _ & _ & _ & B & _ & _ & M); [|exact ex_ml_says|exact ex_ml_consistent|reflexivity| |].
  - apply Forall_forall. intros l Hl. apply lineb_ok. revert l Hl. apply forallb_forall. reflexivity.
  - repeat constructor.
  - exists m. auto.
Qed.

(** A block enclosed by one closed surface (a salt body) has one number: such a file, otherwise consistent, makes the reader take the
    neighbour of the last number of a list of one element. *)
Definition salt_components : list component :=
  [Tsurf (lit "s"); Tface (lit "top") (lit "s"); Region (lit "Universe") [1]; Region (lit "salt") [-1]].
Definition salt_body : list bytes := [lit "TSURF s"; lit "TFACE 1 top s"; lit "REGION 2 Universe"; lit "1 0"; lit "REGION 3 salt"; lit "-1 0"].
Definition salt_data : list bytes := [lit "VRTX 1 0 0 0"].
Definition salt_rest : list bytes := [lit "GOCAD TSurf 1"; lit "HEADER {"; lit "}"; lit "TFACE"] ++ salt_data ++ [lit "END"].
Definition salt_file : list bytes := [lit "GOCAD Model3d 1"; lit "HEADER {"; lit "}"] ++ salt_body ++ lit "END" :: salt_rest.
Theorem C106_salt_refuted : exists ls cs sheets, ml_says ExNum ls None cs sheets /\
  regions cs = [(lit "salt", [-1])] /\ universe cs = [1] /\ tsurfs cs = [lit "s"] /\ faces cs = [(lit "top", lit "s")] /\
  Forall2 (fun n s => lenz (positions cs n) = lenz (sh_sections s)) (tsurfs cs) sheets /\
  read_ml ExNum (unlines ls) = UB.
Proof.
  exists salt_file, salt_components, [mkSheet None [mkSection [plain_vertex 1 (0, 0, 0)] []]].
  split; [|repeat (split; [reflexivity|])].
  - exists true, salt_body, (lit "END"), salt_rest. split; [|split; [|split; [reflexivity|]]].
    + exists [], (lit "GOCAD Model3d 1"), [lit "HEADER {"; lit "}"], []. split; [reflexivity|]. split; [constructor|]. split; [reflexivity|]. split; [|split; [now left|intros _; reflexivity]].
      exists (lit "HEADER {"), [], (lit "}"). split; [reflexivity|]. split; [reflexivity|]. split; [constructor|]. split; [reflexivity|]. left. split; [reflexivity|constructor].
    + unfold salt_body, salt_components.
      apply (ct_component [_]); [exists (lit "TSURF s"), [lit "s"]; repeat split; reflexivity|reflexivity|].
      apply (ct_component [_]); [exists (lit "TFACE 1 top s"), (lit "1"), [lit "s"]; repeat split; reflexivity|reflexivity|].
      apply (ct_component [_; _]); [exists (lit "REGION 2 Universe"), (lit "2"), [lit "Universe"], [lit "1 0"]; repeat split; try reflexivity|reflexivity|].
      { exists [], (lit "1 0"), [lit "1"], (lit "0"), [], [], [1]. repeat split; try reflexivity; repeat constructor; discriminate. }
      apply (ct_component [_; _]); [exists (lit "REGION 3 salt"), (lit "3"), [lit "salt"], [lit "-1 0"]; repeat split; try reflexivity|reflexivity|constructor].
      exists [], (lit "-1 0"), [lit "-1"], (lit "0"), [], [], [-1]. repeat split; try reflexivity; repeat constructor; discriminate.
    + cbn [sheets_text]. exists []. split; [|exact I].
      exists true, [], [], (lit "TFACE"), salt_data, (lit "END"). cbn [sh_name sh_sections]. split; [|split; [constructor|]].
      * exists []. split; [|split; [now left|reflexivity]].
        exists [], (lit "GOCAD TSurf 1"), [lit "HEADER {"; lit "}"], []. split; [reflexivity|]. split; [constructor|]. split; [reflexivity|]. split; [|split; [now left|intros _; reflexivity]].
        exists (lit "HEADER {"), [], (lit "}"). split; [reflexivity|]. split; [reflexivity|]. split; [constructor|]. split; [reflexivity|]. left. split; [reflexivity|constructor].
      * split; [reflexivity|]. split; [|split; [now exists []|split; [constructor|repeat constructor]]].
        pose proof (hd_nil ExNum true []) as D.
        eapply (hd_vertex ExNum true [] _ [] _ _ (lit "VRTX 1 0 0 0") (plain_vertex 1 (0, 0, 0))) in D; [|pv|reflexivity]. exact D.
  - split; [repeat constructor|]. apply is_UB_ok. vm_compute. reflexivity.
Qed.
Print Assumptions C106_salt_refuted.
