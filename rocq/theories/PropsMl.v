(** * Properties C36-C41, C70-C74: the .ml format (model/internal/ml_output_*.cpp, ml_input.cpp).
    The specification ([exportable], [same_model], [numbered_section], ...) is in MlRound.v. *)
From Coq Require Import ZArith List Lia Bool Ascii String Permutation.
From Verif Require Import Base Text TextFacts GocadModel MeshModel TsModel Spec GocadFacts TsFacts
  SignsModel MlModel MlFacts MlFile MlRound ExNum ExCheck.
Import ListNotations.
Local Open Scope string_scope.
Local Open Scope list_scope.
Local Open Scope Z_scope.

(** ** An example: two blocks, four surfaces, each a triangle or two. *)
Definition ex_surf (id x : Z) : MSurf ExNum :=
  mkMSurf (F:=ExNum) id None [(x, 0, 0); (x + 1, 0, 0); (x, 1, 7); (x + 1, 1, 7)] [(0, 1, 2); (1, 3, 2)]
    [[(0, 1); (1, 3); (3, 2); (2, 0)]] [0; 3].
Definition ex_uuid (id : Z) : bytes := lit "uuid" ++ show id.
Definition ex_with (t : fault_type) : SModel ExNum :=
  mkSModel (F:=ExNum) (Some (lit "my model")) [ex_surf 1 0; ex_surf 2 10; ex_surf 3 20; ex_surf 4 30]
    [mkColl 10 (Some (lit "outer box")) tt [1; 4]]
    [mkColl 11 (Some (lit "big fault")) t [2]]
    [mkColl 12 (Some (lit "H1")) CTopography [3]]
    []
    [mkBlock 100 (Some (lit "west")) [1; 2] [3]; mkBlock 101 None [2; 4] []]
    [mkColl 20 (Some (lit "layer 1")) tt [101; 100]] [mkColl 21 (Some (lit "FB")) tt [101]].
Definition ex_model : SModel ExNum := ex_with FNormal.
Definition ex_usides : list (Z * bool) := [(1, true); (4, false)].
Definition ex_rsides : PairedSigns := [(100, 1, true); (100, 2, false); (101, 2, true); (101, 4, true)].

Lemma zshow_first z : exists c t, zshow z = c :: t /\ (c = "-"%char \/ is_digit c = true).
Proof.
  unfold zshow. destruct (z <? 0) eqn:E; [do 2 eexists; split; [reflexivity|now left]|].
  apply Z.ltb_ge in E. destruct (show_spec z E) as [H1 [H2 _]]. destruct (show z) as [|c t]; [congruence|].
  inversion H2; subst. eauto.
Qed.
Lemma ExNum_coords : coords_not_keywords ExNum.
Proof.
  intros v H. cbn [pt_text ExNum] in H. destruct (zshow_first v) as [c [t [E Hc]]]. rewrite E in H.
  cbn [ml_keywords map In] in H.
  destruct H as [H|[H|[H|[H|[H|[]]]]]]; injection H as <- _; destruct Hc as [Hc|Hc]; discriminate.
Qed.
Ltac cases := repeat match goal with H : _ \/ _ |- _ => destruct H as [H|H] | H : False |- _ => destruct H end; subst.
Ltac nodup := repeat (apply NoDup_cons; [cbn [In]; intros HH; cases; discriminate || congruence || lia|]); apply NoDup_nil.
Lemma ex_surf_proper i x : proper_surface (ex_surf i x).
Proof.
  constructor.
  - discriminate.
  - cbn [s_tris ex_surf s_points lenz List.length]. repeat (apply Forall_cons; [cbn; lia|]). constructor.
  - intros loop e. cbn [s_loops s_points ex_surf]. intros [<-|[]]. cbn [In]. intros H. cases; cbn; lia.
Qed.
Lemma ex_with_exportable t : exportable ex_uuid (ex_with t) ex_usides ex_rsides.
Proof.
  constructor.
  - cbn. nodup.
  - cbn [m_surfaces ex_with]. repeat (apply Forall_cons; [apply ex_surf_proper|]). constructor.
  - cbn. tauto.
  - cbn. nodup.
  - intros s [].
  - cbn [In groups ex_with]. vm_compute. intros g H. cases; discriminate.
  - split; intros c; cbn [In m_faults m_horizons ex_with]; intros H; cases; discriminate.
  - intros g H. vm_compute in H. cases; apply cleanb_ok; reflexivity.
  - vm_compute. nodup.
  - intros n [= <-]. now apply lineb_ok.
  - intros c [<-|[]]. split; discriminate.
  - intros s. cbn. intros H. cases; eexists; reflexivity.
  - intros b s. cbn [m_blocks ex_with In]. intros H. cases; cbn [b_boundaries In]; intros H; cases; eexists; reflexivity.
  - intros b. cbn [m_blocks ex_with In]. intros H. cases.
    + split; [apply cleanb_ok; reflexivity|]. split; [discriminate|]. split; [cbn; nodup|]. split; [cbn; intros; tauto|]. cbn. lia.
    + split; [apply cleanb_ok; reflexivity|]. split; [discriminate|]. split; [cbn; nodup|]. split; [cbn; intros; tauto|]. cbn. lia.
  - intros u. cbn [m_units m_fblocks ex_with In app]. intros H. cases; cbn [c_name c_items];
      (split; [eexists; split; [reflexivity|apply cleanb_ok; reflexivity]|]); cbn; intros; tauto.
  - cbn. lia.
Qed.
Lemma ex_exportable : exportable ex_uuid ex_model ex_usides ex_rsides.
Proof. apply ex_with_exportable. Qed.

(** ** C36: lists of numbers *)
(** A signed number as the file shows it. *)
Definition signed_text (v : Z) : bytes := if v <? 0 then "-"%char :: show (- v) else "+"%char :: show v.

Lemma signed_text_ok v : 1 <= Z.abs v < 2147483648 ->
  token (signed_text v) /\ parse_int (signed_text v) = Some v.
Proof.
  intros H. unfold signed_text. destruct (Z.ltb_spec v 0).
  - change ("-"%char :: show (- v)) with (signed_id false (- v)). split; [apply signed_token; lia|].
    rewrite parse_int_signed by lia. f_equal. lia.
  - change ("+"%char :: show v) with (signed_id true v). split; [apply signed_token; lia|].
    now rewrite parse_int_signed by lia.
Qed.
Lemma signed_tokens ids : Forall (fun v => 1 <= Z.abs v < 2147483648) ids -> Forall token (map signed_text ids).
Proof. intros H. apply Forall_map. eapply Forall_impl; [|exact H]. intros v Hv. now apply signed_text_ok. Qed.

Theorem C36_region_ids : forall (ids : list Z) (rest : list bytes),
  Forall (fun v => 1 <= Z.abs v < 2147483648) ids ->
  read_ids block_parse (id_lines (map signed_text ids) ++ rest) = Ok (ids, rest).
Proof.
  intros ids rest H. apply read_id_lines; [reflexivity|now apply signed_tokens|].
  rewrite <- (map_id ids) at 2. apply Forall2_map_both. intros v Hv. rewrite Forall_forall in H. specialize (H v Hv).
  destruct (signed_text_ok v H) as [_ E]. split; [|lia]. unfold block_parse, string_to_int. rewrite E. cbn [bind].
  rewrite (proj2 (Z.eqb_neq _ _)) by lia. unfold surface_number. rewrite (proj2 (Z.eqb_neq _ _)) by lia. reflexivity.
Qed.
Print Assumptions C36_region_ids.

Theorem C36_universe_ids : forall (n : Z) (ids : list Z) (rest : list bytes),
  n < 2147483648 -> Forall (fun v => 1 <= Z.abs v <= n) ids ->
  read_ids (universe_parse n) (id_lines (map signed_text ids) ++ rest) = Ok (ids, rest).
Proof.
  intros n ids rest Hn H. apply read_id_lines; [reflexivity| |].
  - apply signed_tokens. eapply Forall_impl; [|exact H]. intros v Hv. cbn beta in Hv. lia.
  - rewrite <- (map_id ids) at 2. apply Forall2_map_both. intros v Hv. rewrite Forall_forall in H. specialize (H v Hv).
    destruct (signed_text_ok v ltac:(lia)) as [_ E]. split; [|lia]. unfold universe_parse, string_to_int. rewrite E. cbn [bind].
    rewrite (proj2 (Z.eqb_neq _ _)) by lia. unfold surface_number. rewrite (proj2 (Z.eqb_neq _ _)) by lia. cbn [bind].
    rewrite (proj2 (Z.ltb_lt _ _)) by lia. reflexivity.
Qed.
Print Assumptions C36_universe_ids.

Theorem C36_unit_ids : forall (ids : list Z) (rest : list bytes),
  Forall (fun v => 0 < v < 4294967296) ids ->
  read_ids string_to_index (id_lines (map show ids) ++ rest) = Ok (ids, rest).
Proof. exact read_unit_ids. Qed.
Print Assumptions C36_unit_ids.

(** Layout: at most five entries on a line, and the 0 only at the end. *)
Lemma wrap_words es : forall k done, Forall token es -> Forall token done -> (List.length done = k mod 5)%nat ->
  exists chunks, map words (wrap_ids (SP :: SP :: padded done) k es) = chunks /\
    Forall (fun c => List.length c <= 5)%nat chunks /\ List.concat chunks = done ++ es ++ [lit "0"].
Proof.
  induction es as [|e es IH]; intros k done He Hd Hk; cbn [wrap_ids].
  - eexists. split; [reflexivity|]. cbn [map].
    change ((SP :: SP :: padded done) ++ lit "0") with (SP :: SP :: padded done ++ lit "0").
    rewrite !words_sep by reflexivity. rewrite words_padded by assumption. rewrite words_tok by tok.
    cbn [List.concat]. rewrite app_nil_r. split; [|reflexivity]. constructor; [|constructor].
    rewrite app_length, Hk. pose proof (Nat.mod_upper_bound k 5 ltac:(lia)). cbn [List.length]. lia.
  - apply Forall_cons_iff in He as [He1 He].
    replace ((SP :: SP :: padded done) ++ e ++ [SP; SP]) with (SP :: SP :: padded (done ++ [e])).
    2:{ unfold padded. rewrite flat_map_app. cbn [flat_map app]. now rewrite app_nil_r. }
    assert (Hd2 : Forall token (done ++ [e])) by (apply Forall_app; auto).
    assert (Hm : (S k mod 5 = if Nat.eqb (k mod 5) 4 then 0 else S (k mod 5))%nat).
    { pose proof (Nat.mod_upper_bound k 5 ltac:(lia)). rewrite <- Nat.add_1_r, Nat.add_mod by lia.
      destruct (Nat.eqb_spec (k mod 5) 4) as [->|Hn]; [reflexivity|]. change (1 mod 5)%nat with 1%nat. rewrite Nat.mod_small; lia. }
    destruct (Nat.eqb (S k mod 5) 0) eqn:Em.
    + apply Nat.eqb_eq in Em.
      destruct (IH (S k) [] He ltac:(constructor) (eq_sym Em)) as [ch [E1 [E2 E3]]].
      cbn [padded flat_map] in E1. exists ((done ++ [e]) :: ch). split; [|split].
      * cbn [map]. rewrite <- (app_nil_r (padded (done ++ [e]))), !words_sep by reflexivity.
        rewrite words_padded by assumption. rewrite E1. cbn [words split_run]. now rewrite app_nil_r.
      * constructor; [|assumption]. rewrite app_length, Hk. pose proof (Nat.mod_upper_bound k 5 ltac:(lia)). cbn [List.length]. lia.
      * cbn [List.concat]. rewrite E3. cbn [app]. now rewrite <- !app_assoc.
    + apply Nat.eqb_neq in Em.
      destruct (IH (S k) (done ++ [e]) He Hd2) as [ch [E1 [E2 E3]]].
      { rewrite app_length, Hk. cbn [List.length]. destruct (Nat.eqb (k mod 5) 4); lia. }
      exists ch. split; [assumption|]. split; [assumption|]. rewrite E3, <- app_assoc. reflexivity.
Qed.
Theorem C36_layout : forall ids : list bytes, Forall token ids ->
  Forall (fun l => List.length (words l) <= 5)%nat (id_lines ids) /\
  List.concat (map words (id_lines ids)) = ids ++ [lit "0"].
Proof.
  intros ids H. destruct (wrap_words ids 0 [] H ltac:(constructor) eq_refl) as [ch [E1 [E2 E3]]].
  cbn [padded flat_map app] in E1. fold (id_lines ids) in E1. cbn [app] in E3. rewrite E1. split; [|assumption].
  rewrite <- E1 in E2. now apply Forall_map in E2.
Qed.
Print Assumptions C36_layout.

(** A number of 2^31 or more is written but cannot be read. *)
Theorem C36_large_id_refuted : exists v : Z, 0 < v < 4294967296 /\
  exists e, read_ids block_parse (id_lines [signed_text v]) = Throw e.
Proof. exists 2147483648. split; [lia|]. apply is_Throw_ok. vm_compute. reflexivity. Qed.
Print Assumptions C36_large_id_refuted.

Example C36_example :
  id_lines (map signed_text [1; -2; 3; -4; 5; 6; -7]) = map lit ["  +1  -2  +3  -4  +5  "; "  +6  -7  0"] /\
  Forall (fun v => 1 <= Z.abs v < 2147483648) [1; -2; 3; -4; 5; 6; -7].
Proof. split; [reflexivity|]. repeat (apply Forall_cons; [lia|]). constructor. Qed.

(** ** C37: blocks *)
Theorem C37_block_topology : forall (F : Num) uuid_text (m : SModel F) usides rsides,
  num_ok F -> coords_not_keywords F -> exportable uuid_text m usides rsides ->
  exists text out nb, write_ml uuid_text m usides rsides = Ok text /\ read_ml F text = Ok out /\
    (* the loaded surface number nb s is the saved surface s *)
    (forall a b, In a (map s_id (m_surfaces m)) -> In b (map s_id (m_surfaces m)) -> nb a = nb b -> a = b) /\
    (forall s, In s (m_surfaces m) -> exists mesh, In (nb (s_id s), mesh) (o_meshes out) /\
             m_cells mesh = s_tris s /\ Forall2 (reread_point F) (s_points s) (m_points mesh)) /\
    (* the blocks *)
    Forall2 (fun b b' => Permutation (bi_boundaries b') (map nb (b_boundaries b)) /\
                         Permutation (bi_internals b') (map nb (b_internals b))) (m_blocks m) (o_blocks out).
Proof.
  intros F u m us rs HF HK E. destruct (ML_round_trip u m us rs HF HK E) as (text & out & nb & W & R & S).
  exists text, out, nb. split; [assumption|]. split; [assumption|]. split; [apply S|]. split; [apply S|].
  induction (l_blocks _ _ _ _ S) as [|b b' bs bs' [_ H] _ IH]; constructor; assumption.
Qed.
Print Assumptions C37_block_topology.
Example C37_example : num_ok ExNum /\ coords_not_keywords ExNum /\ exportable ex_uuid ex_model ex_usides ex_rsides.
Proof. split; [apply ExNum_ok|]. split; [apply ExNum_coords|apply ex_exportable]. Qed.

Lemma written (w : res bytes) (chk : bytes -> bool) :
  (match w with Ok t => chk t | _ => false end = true) -> exists t, w = Ok t /\ chk t = true.
Proof. destruct w; try discriminate. eauto. Qed.

(** A block enclosed by a single surface: the file is written, reading it is undefined. *)
Definition ball_model : SModel ExNum :=
  mkSModel (F:=ExNum) None [ex_surf 1 0] [mkColl 10 (Some (lit "ball")) tt [1]] [] [] []
    [mkBlock 100 (Some (lit "inside")) [1] []] [] [].
Theorem C37_single_surface_refuted : exists (m : SModel ExNum) usides rsides text,
  Forall proper_surface (m_surfaces m) /\
  m_blocks m = [mkBlock 100 (Some (lit "inside")) [1] []] /\
  write_ml ex_uuid m usides rsides = Ok text /\ read_ml ExNum text = UB.
Proof.
  destruct (written (write_ml ex_uuid ball_model [(1, true)] [(100, 1, true)]) (fun t => is_UB (read_ml ExNum t)))
    as [t [W R]]; [vm_compute; reflexivity|].
  exists ball_model, [(1, true)], [(100, 1, true)], t. split.
  - constructor; [apply ex_surf_proper|constructor].
  - split; [reflexivity|]. split; [assumption|]. now apply is_UB_ok.
Qed.
Print Assumptions C37_single_surface_refuted.

(** ** C38: numbers of the components *)
Theorem C38_consecutive_numbers : forall (F : Num) uuid_text (m : SModel F) usides rsides lines,
  num_ok F -> coords_not_keywords F ->
  NoDup (map s_id (m_surfaces m) ++ map b_id (m_blocks m)) ->
  (forall b s, In b (m_blocks m) -> In s (b_boundaries b ++ b_internals b) -> In s (map s_id (m_surfaces m))) ->
  write_components uuid_text m usides rsides = Ok lines ->
  exists declared, numbered_section uuid_text m lines declared.
Proof. intros F u m us rs lines HF HK. now apply components_numbered. Qed.
Print Assumptions C38_consecutive_numbers.

(** Surfaces in several collections are declared once. *)
Definition shared_model : SModel ExNum :=
  mkSModel (F:=ExNum) None [ex_surf 1 0; ex_surf 2 10; ex_surf 3 20]
    [mkColl 10 (Some (lit "box")) tt [3]]
    [mkColl 11 (Some (lit "A")) FNormal [1]; mkColl 12 (Some (lit "B")) FNormal [1; 2]] [] []
    [mkBlock 100 (Some (lit "west")) [1; 2] [3]] [] [].
Definition shared_sides : PairedSigns := [(100, 1, true); (100, 2, false)].
Example C38_example :
  NoDup (map s_id (m_surfaces shared_model) ++ map b_id (m_blocks shared_model)) /\
  (forall b s, In b (m_blocks shared_model) -> In s (b_boundaries b ++ b_internals b) ->
     In s (map s_id (m_surfaces shared_model))) /\
  exists lines, write_components ex_uuid shared_model [(3, true)] shared_sides = Ok lines /\
    flat_map component_number lines = map lit ["1"; "2"; "3"; "4"; "5"].
Proof.
  split; [cbn; nodup|]. split; [intros b s [<-|[]]; cbn; tauto|].
  destruct (write_components ex_uuid shared_model [(3, true)] shared_sides) as [ls| | |] eqn:E; [|vm_compute in E; discriminate..].
  exists ls. split; [reflexivity|]. apply (leqb_ok beq); [intros x y; apply beq_eq|].
  assert (X : match write_components ex_uuid shared_model [(3, true)] shared_sides with
     Ok l => leqb beq (flat_map component_number l) (map lit ["1"; "2"; "3"; "4"; "5"]) | _ => false end = true)
    by (vm_compute; reflexivity).
  rewrite E in X. exact X.
Qed.

(** ** C39: units *)
Theorem C39_units_keep_blocks : forall (F : Num) uuid_text (m : SModel F) usides rsides,
  num_ok F -> coords_not_keywords F -> exportable uuid_text m usides rsides ->
  exists text out, write_ml uuid_text m usides rsides = Ok text /\ read_ml F text = Ok out /\
    Forall2 (fun b b' => bi_name b' = underscored (label uuid_text (b_name b) (b_id b))) (m_blocks m) (o_blocks out) /\
    Forall2 (same_unit m) (m_units m) (o_units out) /\
    Forall2 (same_unit m) (m_fblocks m) (o_fblocks out).
Proof.
  intros F u m us rs HF HK E. destruct (ML_round_trip u m us rs HF HK E) as (text & out & nb & W & R & S).
  exists text, out. split; [assumption|]. split; [assumption|]. split; [|split; apply S].
  induction (l_blocks _ _ _ _ S) as [|b b' bs bs' [H _] _ IH]; constructor; assumption.
Qed.
Print Assumptions C39_units_keep_blocks.
Example C39_example : exportable ex_uuid ex_model ex_usides ex_rsides /\
  m_units ex_model = [mkColl 20 (Some (lit "layer 1")) tt [101; 100]].
Proof. split; [apply ex_exportable|reflexivity]. Qed.

(** A block named Universe is lost and the units get other blocks. *)
Definition universe_model : SModel ExNum :=
  mkSModel (F:=ExNum) None [ex_surf 1 0; ex_surf 2 10]
    [mkColl 10 (Some (lit "box")) tt [1; 2]] [] [] []
    [mkBlock 100 (Some (lit "Universe")) [1; 2] []; mkBlock 101 (Some (lit "east")) [1; 2] []]
    [mkColl 20 (Some (lit "layer")) tt [100]] [].
Definition universe_sides : PairedSigns := [(100, 1, true); (100, 2, false); (101, 1, true); (101, 2, false)].
Definition unit_is (n : bytes) (l : list Z) (u : list (bytes * list Z)) : bool :=
  match u with [(n', l')] => beq n n' && leqb Z.eqb l l' | _ => false end.
Lemma unit_is_ok n l u : unit_is n l u = true -> u = [(n, l)].
Proof.
  destruct u as [|[n' l'] [|]]; try discriminate. cbn [unit_is]. intros H. apply andb_true_iff in H as [H1 H2].
  apply beq_eq in H1. apply (leqb_ok Z.eqb) in H2; [congruence|]. intros x y. apply Z.eqb_eq.
Qed.
Theorem C39_universe_block_refuted : exists (m : SModel ExNum) usides rsides text out,
  map b_name (m_blocks m) = [Some (lit "Universe"); Some (lit "east")] /\
  map c_items (m_units m) = [[b_id (mkBlock 100 (Some (lit "Universe")) [1; 2] [])]] /\
  write_ml ex_uuid m usides rsides = Ok text /\ read_ml ExNum text = Ok out /\
  (* one block is left, and it is in the unit *)
  map bi_name (o_blocks out) = [lit "east"] /\ o_units out = [(lit "layer", [0])].
Proof.
  destruct (written (write_ml ex_uuid universe_model [(1, true); (2, true)] universe_sides)
    (fun t => match read_ml ExNum t with
              | Ok out => leqb beq (map bi_name (o_blocks out)) [lit "east"] && unit_is (lit "layer") [0] (o_units out)
              | _ => false end)) as [t [W R]]; [vm_compute; reflexivity|].
  destruct (read_ml ExNum t) as [out| | |] eqn:E; try discriminate.
  apply andb_true_iff in R as [R1 R2].
  exists universe_model, [(1, true); (2, true)], universe_sides, t, out.
  split; [reflexivity|]. split; [reflexivity|]. split; [assumption|]. split; [assumption|]. split; [|now apply unit_is_ok].
  revert R1. apply leqb_ok. intros x y. apply beq_eq.
Qed.
Print Assumptions C39_universe_block_refuted.

(** ** C40: types *)
Theorem C40_types_kept : forall (F : Num) uuid_text (m : SModel F) usides rsides,
  num_ok F -> coords_not_keywords F -> exportable uuid_text m usides rsides ->
  exists text out nb, write_ml uuid_text m usides rsides = Ok text /\ read_ml F text = Ok out /\
    (forall c, In c (m_faults m) -> In (c_type c) [FNoType; FNormal; FReverse] ->
       In (mkCollIn (KFault (c_type c)) (label uuid_text (c_name c) (c_id c)) (map nb (c_items c))) (o_colls out)) /\
    (forall c, In c (m_horizons m) ->
       In (mkCollIn (KHorizon (c_type c)) (label uuid_text (c_name c) (c_id c)) (map nb (c_items c))) (o_colls out)).
Proof.
  intros F u m us rs HF HK E. destruct (ML_round_trip u m us rs HF HK E) as (text & out & nb & W & R & S).
  exists text, out, nb. split; [assumption|]. split; [assumption|].
  destruct (l_colls _ _ _ _ S) as [more [-> _]]. unfold groups. rewrite !map_app, !map_map. split.
  - intros c Hc Ht. rewrite !in_app_iff. left. right. left. apply in_map_iff. exists c. split; [|assumption].
    cbn [fst snd gname]. f_equal. f_equal. destruct (c_type c); cbn in Ht; intuition congruence.
  - intros c Hc. rewrite !in_app_iff. left. right. right. left. apply in_map_iff. exists c. split; [reflexivity|assumption].
Qed.
Print Assumptions C40_types_kept.
Example C40_example : exportable ex_uuid ex_model ex_usides ex_rsides /\
  map c_type (m_faults ex_model) = [FNormal] /\ map c_type (m_horizons ex_model) = [CTopography].
Proof. split; [apply ex_exportable|]. split; reflexivity. Qed.

(** The other fault types are lost. *)
Theorem C40_other_fault_types : forall (F : Num) uuid_text (m : SModel F) usides rsides,
  num_ok F -> coords_not_keywords F -> exportable uuid_text m usides rsides ->
  exists text out nb, write_ml uuid_text m usides rsides = Ok text /\ read_ml F text = Ok out /\
    forall c, In c (m_faults m) -> In (c_type c) [FStrikeSlip; FListric; FDecollement] ->
       In (mkCollIn (KFault FNoType) (label uuid_text (c_name c) (c_id c)) (map nb (c_items c))) (o_colls out) /\
       forall t items, t <> FNoType ->
         ~ In (mkCollIn (KFault t) (label uuid_text (c_name c) (c_id c)) items) (o_colls out).
Proof.
  intros F u m us rs HF HK E. destruct (ML_round_trip u m us rs HF HK E) as (text & out & nb & W & R & S).
  exists text, out, nb. split; [assumption|]. split; [assumption|].
  intros c Hc Ht.
  set (g := (KFault FNoType, label u (c_name c) (c_id c), c_items c)).
  assert (Hg : In g (groups u m)).
  { unfold groups. rewrite !in_app_iff. right. left. apply in_map_iff. exists c. split; [|assumption].
    unfold g. f_equal. f_equal. f_equal. destruct (c_type c); cbn in Ht; intuition congruence. }
  (* no group has the name of the collection added for the surfaces of no collection *)
  destruct (l_colls _ _ _ _ S) as [more [Eo Hm]].
  split.
  - rewrite Eo. apply in_or_app. left. apply in_map_iff. exists g. split; [reflexivity|assumption].
  - intros t items Hn Hi.
    assert (Hk : Forall (fun x => ci_kind x = KBoundary) more).
    { destruct (l_more _ _ _ _ S) as [more' [Eo' Hk]]. rewrite Eo in Eo'. apply app_inv_head in Eo'. now subst. }
    rewrite Eo in Hi. apply in_app_or in Hi as [Hi|Hi].
    + apply in_map_iff in Hi as [g' [Eg Hg']].
      assert (Hnm : gname g' = gname g) by (injection Eg as _ E2 _; exact E2).
      assert (g' = g) as ->.
      { pose proof (e_distinct _ _ _ _ E) as N. clear -N Hg Hg' Hnm.
        induction (groups u m) as [|x l IH]; [inversion Hg|]. cbn [map] in N. apply NoDup_cons_iff in N as [N1 N2].
        destruct Hg as [Hg|Hg], Hg' as [Hg'|Hg']; try congruence; auto.
        - exfalso. apply N1. rewrite Hg, <- Hnm. now apply in_map.
        - exfalso. apply N1. rewrite Hg', Hnm. now apply in_map. }
      cbn [g fst] in Eg. injection Eg as E1 _. congruence.
    + rewrite Forall_forall in Hk. specialize (Hk _ Hi). discriminate.
Qed.
Print Assumptions C40_other_fault_types.

Theorem C40_fault_type_refuted : exists (m : SModel ExNum) usides rsides text out c,
  exportable ex_uuid m usides rsides /\ In c (m_faults m) /\ c_name c = Some (lit "big fault") /\ c_type c = FStrikeSlip /\
  write_ml ex_uuid m usides rsides = Ok text /\ read_ml ExNum text = Ok out /\
  forall items, ~ In (mkCollIn (KFault FStrikeSlip) (lit "big fault") items) (o_colls out).
Proof.
  destruct (C40_other_fault_types ExNum ex_uuid (ex_with FStrikeSlip) ex_usides ex_rsides ExNum_ok ExNum_coords
    (ex_with_exportable FStrikeSlip)) as (text & out & nb & W & R & H).
  exists (ex_with FStrikeSlip), ex_usides, ex_rsides, text, out, (mkColl 11 (Some (lit "big fault")) FStrikeSlip [2]).
  split; [apply ex_with_exportable|]. split; [now left|]. split; [reflexivity|]. split; [reflexivity|].
  split; [assumption|]. split; [assumption|]. intros items.
  destruct (H (mkColl 11 (Some (lit "big fault")) FStrikeSlip [2])) as [_ H2]; [now left|now left|].
  apply H2. discriminate.
Qed.
Print Assumptions C40_fault_type_refuted.

(** A model with an erosion or baselap horizon is never saved. *)
Theorem C40_contact_types_not_saved : forall (F : Num) uuid_text (m : SModel F) usides rsides text c,
  In c (m_horizons m) -> c_type c = CErosion \/ c_type c = CBaselap ->
  write_ml uuid_text m usides rsides <> Ok text.
Proof.
  intros F u m us rs text c Hc Ht H. unfold write_ml, rmap in H. apply bind_ok in H as [ls [H _]].
  unfold ml_lines in H. apply bind_ok in H as [cs [_ H]]. apply bind_ok in H as [ss [H _]].
  unfold write_model_surfaces in H. apply bind_ok in H as [l [H _]]. apply mapM_ok in H.
  assert (Hi : In (horizon_text (c_type c), name_value (c_name c), c_items c) (sections u m)).
  { unfold sections. rewrite !in_app_iff. right. right. left. apply in_map_iff. exists c. auto. }
  destruct (forall2_in_l _ _ _ _ H Hi) as [y [_ Hy]].
  apply bind_ok in Hy as [n [_ Hy]]. apply bind_ok in Hy as [k [Hk _]].
  destruct Ht as [Ht|Ht]; rewrite Ht in Hk; discriminate.
Qed.
Print Assumptions C40_contact_types_not_saved.
Definition erosion_model : SModel ExNum :=
  mkSModel (F:=ExNum) None [ex_surf 1 0; ex_surf 2 10] [mkColl 10 (Some (lit "box")) tt [1]] []
    [mkColl 12 (Some (lit "H1")) CErosion [2]] [] [] [] [].
Theorem C40_contact_type_refuted : exists (m : SModel ExNum) usides rsides e,
  map c_type (m_horizons m) = [CErosion] /\ Forall proper_surface (m_surfaces m) /\
  write_ml ex_uuid m usides rsides = Throw e.
Proof.
  exists erosion_model, [(1, true)], [], ExOutOfRange. split; [reflexivity|].
  split; [repeat (apply Forall_cons; [apply ex_surf_proper|]); constructor|]. vm_compute. reflexivity.
Qed.
Print Assumptions C40_contact_type_refuted.

(** ** C41: the surfaces of the collections *)
Theorem C41_collections_keep_surfaces : forall (F : Num) uuid_text (m : SModel F) usides rsides,
  num_ok F -> coords_not_keywords F -> exportable uuid_text m usides rsides ->
  exists text out nb, write_ml uuid_text m usides rsides = Ok text /\ read_ml F text = Ok out /\
    (* one loaded surface per saved surface, with its geometry *)
    (forall a b, In a (map s_id (m_surfaces m)) -> In b (map s_id (m_surfaces m)) -> nb a = nb b -> a = b) /\
    NoDup (map fst (o_meshes out)) /\ lenz (o_meshes out) = lenz (m_surfaces m) /\
    (forall s, In s (m_surfaces m) -> exists mesh, In (nb (s_id s), mesh) (o_meshes out) /\
             m_cells mesh = s_tris s /\ Forall2 (reread_point F) (s_points s) (m_points mesh)) /\
    (* the collections, in order *)
    exists more,
      map (fun c => (ci_name c, ci_surfaces c)) (o_colls out) =
        map (fun c => (underscored (label uuid_text (c_name c) (c_id c)), map nb (c_items c))) (m_bounds m) ++
        map (fun c => (label uuid_text (c_name c) (c_id c), map nb (c_items c))) (m_faults m) ++
        map (fun c => (label uuid_text (c_name c) (c_id c), map nb (c_items c))) (m_horizons m) ++ more /\
      (free m = [] -> more = []).
Proof.
  intros F u m us rs HF HK E. destruct (ML_round_trip u m us rs HF HK E) as (text & out & nb & W & R & S).
  exists text, out, nb. split; [assumption|]. split; [assumption|]. split; [apply S|].
  destruct (l_once _ _ _ _ S) as [O1 O2]. split; [assumption|]. split; [assumption|]. split; [apply S|].
  destruct (l_colls _ _ _ _ S) as [more [-> Hm]]. unfold groups. rewrite !map_app, !map_map. cbn [ci_name ci_surfaces gname fst snd].
  rewrite <- !app_assoc. eexists. split; [reflexivity|]. intros Hf. rewrite Hf, (Hm Hf). reflexivity.
Qed.
Print Assumptions C41_collections_keep_surfaces.
Example C41_example : exportable ex_uuid ex_model ex_usides ex_rsides /\ free ex_model = [].
Proof. split; [apply ex_exportable|reflexivity]. Qed.

(** A surface in two collections: the second collection loses one surface, and the one it keeps
    has the geometry of the other. *)
Definition mesh_pts (out : MlIn ExNum) (i : Z) : list (list (Z * Z * Z)) :=
  map (fun p => m_points (snd p)) (filter (fun p => fst p =? i) (o_meshes out)).
Definition coll_eqb (a b : bytes * list Z) : bool := beq (fst a) (fst b) && leqb Z.eqb (snd a) (snd b).
Lemma coll_eqb_ok a b : coll_eqb a b = true -> a = b.
Proof.
  destruct a, b. unfold coll_eqb. cbn [fst snd]. intros H. apply andb_true_iff in H as [H1 H2]. apply beq_eq in H1.
  apply (leqb_ok Z.eqb) in H2; [congruence|]. intros x y. apply Z.eqb_eq.
Qed.
Theorem C41_shared_surface_refuted : exists (m : SModel ExNum) usides rsides text out,
  map c_items (m_faults m) = [[1]; [1; 2]] /\ map s_id (m_surfaces m) = [1; 2; 3] /\
  write_ml ex_uuid m usides rsides = Ok text /\ read_ml ExNum text = Ok out /\
  map (fun c => (ci_name c, ci_surfaces c)) (o_colls out) = [(lit "box", [0]); (lit "A", [1]); (lit "B", [2])] /\
  (* surface 2 of the model is nowhere: the loaded surfaces 1 and 2 are both surface 1 *)
  mesh_pts out 1 = [s_points (ex_surf 1 0)] /\ mesh_pts out 2 = [s_points (ex_surf 1 0)] /\
  s_points (ex_surf 1 0) <> s_points (ex_surf 2 10).
Proof.
  destruct (written (write_ml ex_uuid shared_model [(3, true)] shared_sides)
    (fun t => match read_ml ExNum t with
              | Ok out => leqb coll_eqb (map (fun c => (ci_name c, ci_surfaces c)) (o_colls out))
                            [(lit "box", [0]); (lit "A", [1]); (lit "B", [2])] &&
                          leqb (leqb zzz_eqb) (mesh_pts out 1) [s_points (ex_surf 1 0)] &&
                          leqb (leqb zzz_eqb) (mesh_pts out 2) [s_points (ex_surf 1 0)]
              | _ => false end)) as [t [W R]]; [vm_compute; reflexivity|].
  destruct (read_ml ExNum t) as [out| | |] eqn:E; try discriminate.
  apply andb_true_iff in R as [R R3]. apply andb_true_iff in R as [R1 R2].
  exists shared_model, [(3, true)], shared_sides, t, out.
  split; [reflexivity|]. split; [reflexivity|]. split; [assumption|]. split; [assumption|].
  assert (L : forall x y, leqb zzz_eqb x y = true -> x = y) by (apply leqb_ok, zzz_eqb_ok).
  split; [|split; [|split]].
  - revert R1. apply leqb_ok, coll_eqb_ok.
  - revert R2. apply leqb_ok, L.
  - revert R3. apply leqb_ok, L.
  - discriminate.
Qed.
Print Assumptions C41_shared_surface_refuted.

(** Two collections of the same name: the file is written and cannot be read. *)
Definition twins_model : SModel ExNum :=
  mkSModel (F:=ExNum) None [ex_surf 1 0; ex_surf 2 10; ex_surf 3 20]
    [mkColl 10 (Some (lit "box")) tt [3]]
    [mkColl 11 (Some (lit "F")) FNormal [1]; mkColl 12 (Some (lit "F")) FNormal [2]] [] [] [] [] [].
Theorem C41_equal_names_refuted : exists (m : SModel ExNum) usides rsides text e,
  map c_name (m_faults m) = [Some (lit "F"); Some (lit "F")] /\ map c_items (m_faults m) = [[1]; [2]] /\
  write_ml ex_uuid m usides rsides = Ok text /\ read_ml ExNum text = Throw e.
Proof.
  destruct (written (write_ml ex_uuid twins_model [(3, true)] []) (fun t => is_Throw (read_ml ExNum t)))
    as [t [W R]]; [vm_compute; reflexivity|]. apply is_Throw_ok in R as [e R].
  exists twins_model, [(3, true)], [], t, e. split; [reflexivity|]. split; [reflexivity|]. auto.
Qed.
Print Assumptions C41_equal_names_refuted.

(** A collection without surfaces: the file is written and cannot be read. *)
Definition empty_coll_model : SModel ExNum :=
  mkSModel (F:=ExNum) None [ex_surf 1 0] [mkColl 10 (Some (lit "box")) tt [1]]
    [mkColl 11 (Some (lit "F")) FNormal []] [] [] [] [] [].
Theorem C41_empty_collection_refuted : exists (m : SModel ExNum) usides rsides text e,
  map c_items (m_faults m) = [[]] /\
  write_ml ex_uuid m usides rsides = Ok text /\ read_ml ExNum text = Throw e.
Proof.
  destruct (written (write_ml ex_uuid empty_coll_model [(1, true)] []) (fun t => is_Throw (read_ml ExNum t)))
    as [t [W R]]; [vm_compute; reflexivity|]. apply is_Throw_ok in R as [e R].
  exists empty_coll_model, [(1, true)], [], t, e. split; [reflexivity|]. auto.
Qed.
Print Assumptions C41_empty_collection_refuted.

(** ** C70: names *)
Theorem C70_names_kept : forall (F : Num) uuid_text (m : SModel F) usides rsides,
  num_ok F -> coords_not_keywords F -> exportable uuid_text m usides rsides ->
  exists text out, write_ml uuid_text m usides rsides = Ok text /\ read_ml F text = Ok out /\
    o_title out = option_map normalise (m_title m) /\
    (forall c n, In c (m_faults m) -> c_name c = Some n -> In n (map ci_name (o_colls out))) /\
    (forall c n, In c (m_horizons m) -> c_name c = Some n -> In n (map ci_name (o_colls out))) /\
    (forall c n, In c (m_bounds m) -> c_name c = Some n -> ~ In " "%char n -> In n (map ci_name (o_colls out))) /\
    (forall j b n, nth_error (m_blocks m) j = Some b -> b_name b = Some n -> ~ In " "%char n ->
       option_map bi_name (nth_error (o_blocks out) j) = Some n) /\
    map (fun u => Some (fst u)) (o_units out) = map c_name (m_units m) /\
    map (fun u => Some (fst u)) (o_fblocks out) = map c_name (m_fblocks m).
Proof.
  intros F u m us rs HF HK E. destruct (ML_round_trip u m us rs HF HK E) as (text & out & nb & W & R & S).
  assert (U : forall n, ~ In " "%char n -> underscored n = n).
  { induction n as [|c n IH]; intros H; [reflexivity|]. cbn [underscored map]. destruct (Ascii.eqb_spec c " ") as [->|Hc].
    - exfalso. apply H. now left.
    - f_equal. apply IH. intros Hi. apply H. now right. }
  exists text, out. split; [assumption|]. split; [assumption|]. split; [apply S|].
  destruct (l_colls _ _ _ _ S) as [more [-> _]]. unfold groups.
  rewrite !map_app, !map_map. cbn [ci_name gname fst snd].
  split; [|split; [|split; [|split; [|split]]]].
  - intros c n Hc Hn. rewrite !in_app_iff. left. right. left. apply in_map_iff. exists c. unfold label. now rewrite Hn.
  - intros c n Hc Hn. rewrite !in_app_iff. left. right. right. left. apply in_map_iff. exists c. unfold label. now rewrite Hn.
  - intros c n Hc Hn Hs. rewrite !in_app_iff. left. left. apply in_map_iff. exists c. unfold label. rewrite Hn. split; [now apply U|assumption].
  - intros j b n Hj Hn Hs. pose proof (l_blocks _ _ _ _ S) as B. revert j Hj.
    induction B as [|x x' xs xs' [Hx _] _ IH]; intros [|j] Hj; try discriminate; cbn [nth_error] in *.
    + injection Hj as ->. cbn [option_map]. rewrite Hx. unfold label. rewrite Hn. f_equal. now apply U.
    + now apply IH.
  - induction (l_units _ _ _ _ S) as [|x x' xs xs' [Hx _] _ IH]; [reflexivity|]. cbn [map]. now rewrite Hx, IH.
  - induction (l_fblocks _ _ _ _ S) as [|x x' xs xs' [Hx _] _ IH]; [reflexivity|]. cbn [map]. now rewrite Hx, IH.
Qed.
Print Assumptions C70_names_kept.
(** A name with a space: the boundary is loaded under another name. *)
Theorem C70_spaces_refuted : exists (m : SModel ExNum) usides rsides text out,
  exportable ex_uuid m usides rsides /\ map c_name (m_bounds m) = [Some (lit "outer box")] /\
  write_ml ex_uuid m usides rsides = Ok text /\ read_ml ExNum text = Ok out /\
  In (lit "outer_box") (map ci_name (o_colls out)) /\ ~ In (lit "outer box") (map ci_name (o_colls out)).
Proof.
  destruct (written (write_ml ex_uuid ex_model ex_usides ex_rsides)
    (fun t => match read_ml ExNum t with
              | Ok out => leqb beq (map ci_name (o_colls out)) (map lit ["outer_box"; "big fault"; "H1"])
              | _ => false end)) as [t [W R]]; [vm_compute; reflexivity|].
  destruct (read_ml ExNum t) as [out| | |] eqn:E; try discriminate.
  apply (leqb_ok beq) in R; [|intros x y; apply beq_eq].
  exists ex_model, ex_usides, ex_rsides, t, out. split; [apply ex_exportable|]. split; [reflexivity|].
  split; [assumption|]. split; [assumption|]. rewrite R. split; [now left|]. cbn [map In]. intros H. cases; discriminate.
Qed.
Print Assumptions C70_spaces_refuted.

(** ** C71: surfaces in no collection *)
Definition free_model : SModel ExNum :=
  mkSModel (F:=ExNum) None [ex_surf 1 0; ex_surf 2 10] [mkColl 10 (Some (lit "box")) tt [1]] [] [] [] [] [] [].
Theorem C71_free_surface_refuted : exists (m : SModel ExNum) usides rsides text out,
  map s_id (m_surfaces m) = [1; 2] /\ map c_items (m_bounds m) = [[1]] /\ m_faults m = [] /\ m_horizons m = [] /\
  write_ml ex_uuid m usides rsides = Ok text /\ read_ml ExNum text = Ok out /\
  (* the surface 2, number 1 when loaded, is on two boundaries *)
  map (fun c => (ci_name c, ci_surfaces c)) (o_colls out)
    = [(lit "box", [0]); (lit "uuid2", [1]); (lit "undefined boundary", [1])] /\
  Forall (fun c => ci_kind c = KBoundary) (o_colls out).
Proof.
  destruct (written (write_ml ex_uuid free_model [(1, true)] [])
    (fun t => match read_ml ExNum t with
              | Ok out => leqb coll_eqb (map (fun c => (ci_name c, ci_surfaces c)) (o_colls out))
                            [(lit "box", [0]); (lit "uuid2", [1]); (lit "undefined boundary", [1])] &&
                          forallb is_boundary (o_colls out)
              | _ => false end)) as [t [W R]]; [vm_compute; reflexivity|].
  destruct (read_ml ExNum t) as [out| | |] eqn:E; try discriminate.
  apply andb_true_iff in R as [R1 R2].
  exists free_model, [(1, true)], [], t, out.
  split; [reflexivity|]. split; [reflexivity|]. split; [reflexivity|]. split; [reflexivity|]. split; [assumption|]. split; [assumption|].
  split; [revert R1; apply leqb_ok, coll_eqb_ok|].
  apply Forall_forall. intros c Hc. rewrite forallb_forall in R2. specialize (R2 c Hc). unfold is_boundary in R2.
  destruct (ci_kind c); congruence.
Qed.
Print Assumptions C71_free_surface_refuted.

(** ** C72: borders of surfaces *)
(** The starts of border lines a surface has: its corners met along any border, each with the
    vertex before it. *)
Definition all_line_starts {F} (s : MSurf F) : list (Z * Z) :=
  flat_map (fun loop => flat_map (fun e => if existsb (Z.eqb (snd e)) (s_corners s) then [(snd e, fst e)] else []) loop) (s_loops s).
Theorem C72_line_starts_partial : forall (F : Num) (s : MSurf F) offset, (List.length (s_loops s) <= 1)%nat ->
  line_starts_of s offset = map (fun e => (fst e + offset, snd e + offset)) (all_line_starts s).
Proof.
  intros F s o H. unfold line_starts_of, all_line_starts. destruct (s_loops s) as [|loop [|]]; [reflexivity| |cbn in H; lia].
  cbn [flat_map]. rewrite app_nil_r. induction loop as [|e l IH]; [reflexivity|]. cbn [filter flat_map].
  destruct (existsb (Z.eqb (snd e)) (s_corners s)); cbn [map app fst snd]; now rewrite IH.
Qed.
Print Assumptions C72_line_starts_partial.
Example C72_example : line_starts_of (ex_surf 1 0) 1 = [(4, 2); (1, 3)].
Proof. reflexivity. Qed.
(** A surface with a hole: the corners along the second border are not written. *)
Definition ring : MSurf ExNum :=
  mkMSurf (F:=ExNum) 1 None [(0, 0, 0); (9, 0, 0); (0, 9, 0); (1, 1, 0); (4, 1, 0); (1, 4, 0)]
    [(0, 1, 3); (1, 4, 3); (1, 2, 4); (2, 5, 4); (2, 0, 5); (0, 3, 5)]
    [[(0, 1); (1, 2); (2, 0)]; [(3, 5); (5, 4); (4, 3)]] [0; 3].
Theorem C72_hole_refuted : exists (s : MSurf ExNum) v, proper_surface s /\ In v (s_corners s) /\
  In v (map fst (all_line_starts s)) /\
  let file := surface_object (lit "boundary") (lit "ring") [s] in
  ~ In (lit "BSTONE " ++ show (v + 1)) file /\ In (lit "BSTONE 1") file.
Proof.
  exists ring, 3. split; [|split; [|split; [|split]]].
  - constructor.
    + discriminate.
    + cbn [s_tris ring s_points lenz List.length]. repeat (apply Forall_cons; [cbn; lia|]). constructor.
    + intros loop e. cbn [s_loops s_points ring]. intros [<-|[<-|[]]]; cbn [In]; intros H; cases; cbn; lia.
  - right. now left.
  - vm_compute. tauto.
  - assert (X : existsb (beq (lit "BSTONE " ++ show (3 + 1))) (surface_object (lit "boundary") (lit "ring") [ring]) = false)
      by (vm_compute; reflexivity).
    intros H. apply not_true_iff_false in X. apply X. apply existsb_exists. eexists. split; [exact H|apply beq_refl].
  - assert (X : existsb (beq (lit "BSTONE 1")) (surface_object (lit "boundary") (lit "ring") [ring]) = true)
      by (vm_compute; reflexivity).
    apply existsb_exists in X as [x [Hx E]]. apply beq_eq in E. now subst.
Qed.
Print Assumptions C72_hole_refuted.

(** ** C73: truncated files *)
(** However the parser of numbers behaves, a list of numbers cut before its 0 never ends. *)
Theorem C73_cut_list_hangs : forall parse es vs, Forall token es ->
  Forall2 (fun e v => parse e = Ok v /\ v <> 0) es vs -> read_ids parse [SP :: SP :: padded es] = Hang.
Proof.
  intros parse es vs Ht H. cbn [read_ids].
  assert (E : string_split (SP :: SP :: padded es) = es).
  { rewrite <- (app_nil_r (padded es)). rewrite split_padded; [cbn [words split_run]; apply app_nil_r|assumption|constructor]. }
  rewrite E, (take_ids_all parse es vs) by assumption. reflexivity.
Qed.
Print Assumptions C73_cut_list_hangs.
Definition cut_file : bytes := unlines (map lit
  ["GOCAD Model3d 1"; "HEADER {"; "name:cut"; "}"; "TSURF a"; "TFACE 1 boundary a"; "  0 0 0"; "  1 0 0"; "  0 1 0";
   "REGION 2  Universe "; "  +1  "]).
Theorem C73_truncated_file_refuted : exists text : bytes, read_ml ExNum text = Hang.
Proof. exists cut_file. apply is_Hang_ok. vm_compute. reflexivity. Qed.
Print Assumptions C73_truncated_file_refuted.

(** ** C74: blank lines *)
Theorem C74_blank_line : forall st line rest, string_split line = [] -> component_line st line rest = UB.
Proof. intros st line rest H. unfold component_line. rewrite H. reflexivity. Qed.
Print Assumptions C74_blank_line.
(** A blank line among the components of a good file. *)
Definition ex_lines : list bytes := match ml_lines ex_uuid ex_model ex_usides ex_rsides with Ok l => l | _ => [] end.
Theorem C74_blank_line_refuted : exists before after : list bytes,
  (exists out, read_ml ExNum (unlines (before ++ after)) = Ok out) /\
  read_ml ExNum (unlines (before ++ [[]] ++ after)) = UB.
Proof.
  exists (firstn 15 ex_lines), (skipn 15 ex_lines). split.
  - assert (X : match read_ml ExNum (unlines (firstn 15 ex_lines ++ skipn 15 ex_lines)) with Ok _ => true | _ => false end = true)
      by (vm_compute; reflexivity).
    destruct (read_ml ExNum (unlines (firstn 15 ex_lines ++ skipn 15 ex_lines))); try discriminate. eauto.
  - apply is_UB_ok. vm_compute. reflexivity.
Qed.
Print Assumptions C74_blank_line_refuted.
