(** * Properties C45-C48, C79-C84: the .lso format (model/internal/lso_output.cpp, lso_input.cpp).
    The specification: [consistent], [colocated], [at_uv] in LsoRound.v, [lso_ok] in LsoTrip.v, [block_like],
    [surface_from] in LsoWhole.v, [same_corners], [copies_last] in LsoRel.v, [facets_at], [all_different],
    [block_facets], [surface_triangles] in LsoCount.v, [block_holds], [line_values] in LsoAttrs.v. *)
From Coq Require Import ZArith List Lia Bool Ascii String Permutation.
From Verif Require Import Base Text TextFacts GocadModel MeshModel TsModel Spec GocadFacts TsFacts StreamFacts PropsGocad
  LsoModel LsoFacts LsoRead LsoRound LsoFile LsoWhole LsoTrip LsoRel LsoCount LsoInspect LsoEnds LsoAttrs LsoBlocks ExNum ExCheck.
Import ListNotations.
Local Open Scope string_scope.
Local Open Scope list_scope.
Local Open Scope Z_scope.

(** ** C45: vertex numbers *)
(** Line [n] (from 1) of [vls] is a VRTX line with the point [p]. *)
Definition vrtx_at {F} (vls : list bytes) (n : Z) (p : point F) : Prop :=
  exists line, nthz vls (n - 1) = Some line /\ words line = [lit "VRTX"; show n; pt_text F (fst (fst p)); pt_text F (snd (fst p)); pt_text F (snd p)].
(** The position given by line [n]: its own, or that of the VRTX line it designates. *)
Definition gives_point {F} (vls : list bytes) (n : Z) (p : point F) : Prop :=
  vrtx_at vls n p \/
  exists line a, nthz vls (n - 1) = Some line /\ words line = [lit "SHAREDVRTX"; show n; show a] /\ vrtx_at vls a p.

Section Numbering.
Context {F : Num} (HF : num_ok F).
Lemma words_vrtx n (p : point F) : 0 <= n ->
  words (lit "VRTX " ++ show n ++ SP :: point_string p) = [lit "VRTX"; show n; pt_text F (fst (fst p)); pt_text F (snd (fst p)); pt_text F (snd p)].
Proof.
  intros Hn. destruct p as [[x y] z]. cbn [fst snd]. change (lit "VRTX " ++ show n ++ SP :: point_string (x, y, z)) with (lit "VRTX" ++ SP :: (show n ++ SP :: point_string (x, y, z))).
  destruct HF. rewrite words_tok_sep; [|apply tokenb_ok; reflexivity|reflexivity]. rewrite words_tok_sep by (reflexivity || now apply show_token).
  unfold point_string. rewrite words_tok_sep by auto. rewrite words_tok_sep by auto. now rewrite words_tok.
Qed.
Lemma words_shared n a : 0 <= n -> 0 <= a -> words (lit "SHAREDVRTX " ++ show n ++ SP :: show a) = [lit "SHAREDVRTX"; show n; show a].
Proof.
  intros Hn Ha. change (lit "SHAREDVRTX " ++ show n ++ SP :: show a) with (lit "SHAREDVRTX" ++ SP :: (show n ++ SP :: show a)).
  rewrite words_tok_sep; [|apply tokenb_ok; reflexivity|reflexivity]. rewrite words_tok_sep by (reflexivity || now apply show_token).
  now rewrite words_tok by now apply show_token.
Qed.
Lemma nthz_vrtx_lines (ps : list (point F)) : forall v i p, nthz ps i = Some p ->
  nthz (lso_vrtx_lines v ps) i = Some (lit "VRTX " ++ show (v + i + 1) ++ SP :: point_string p).
Proof.
  induction ps as [|q ps IH]; intros v i p H; [apply nthz_in in H; destruct H|]. rewrite nthz_cons in H. cbn [lso_vrtx_lines]. rewrite nthz_cons.
  destruct (Z.eqb_spec i 0) as [->|Ni]; [assert (q = p) as -> by congruence; now rewrite Z.add_0_r|].
  rewrite (IH (v + 1) (i - 1) p H). do 5 f_equal. lia.
Qed.
Lemma vrtx_lines_length (ps : list (point F)) : forall v, lenz (lso_vrtx_lines v ps) = lenz ps.
Proof. induction ps as [|q ps IH]; intros v; [reflexivity|]. cbn [lso_vrtx_lines]. now rewrite !lenz_cons, IH. Qed.
Lemma nthz_shared_lines atoms : forall c i a, 0 <= c -> c + lenz atoms < two32 + 1 -> nthz atoms i = Some a ->
  nthz (shared_lines c atoms) i = Some (lit "SHAREDVRTX " ++ show (c + i) ++ SP :: show a).
Proof.
  induction atoms as [|x atoms IH]; intros c i a Hc Hs H; [apply nthz_in in H; destruct H|]. rewrite lenz_cons in Hs. pose proof (lenz_nonneg atoms).
  rewrite nthz_cons in H. cbn [shared_lines]. rewrite nthz_cons. destruct (Z.eqb_spec i 0) as [->|Ni]; [assert (x = a) as -> by congruence; now rewrite Z.add_0_r|].
  pose proof (nthz_range _ _ _ H). rewrite add32_small by lia. rewrite (IH (c + 1) (i - 1) a) by (lia || assumption). do 4 f_equal. lia.
Qed.

Theorem C45_vertex_numbers (m : LModel F) sides text :
  consistent m -> Forall (fun mvs => mvs <> []) (l_uv m) -> lenz (l_uv m) + nb_others (l_uv m) < two32 -> Forall good_block (l_blocks m) ->
  write_lso m sides = Ok text ->
  exists before vls after (pts : list (point F)) (num : LBlock F -> Z -> Z),
    (* the file *)
    text = unlines (before ++ vls ++
      flat_map (fun b => flat_map (fun t => [lit "TETRA" ++ spaced (map (fun v => show (num b v)) (quad_list t));
                                             lit "# CTETRA " ++ k_name b ++ lit " none none none none"]) (k_tets b)) (l_blocks m) ++ after) /\
    (* the vertex lines are numbered 1, 2, 3... *)
    (forall n line, nthz vls (n - 1) = Some line -> exists kw rest, (kw = lit "VRTX" \/ kw = lit "SHAREDVRTX") /\ words line = kw :: show n :: rest) /\
    (* one position for each unique vertex, that of one of its block vertices *)
    lenz pts = lenz (l_uv m) /\ (forall u p, nthz pts u = Some p -> at_uv m u p) /\
    (* the number of a block vertex leads to the position of its unique vertex *)
    (forall b v u, In b (l_blocks m) -> nthz (k_uv b) v = Some u -> exists p, nthz pts u = Some p /\ gives_point vls (num b v) p) /\
    (* and is its own *)
    (forall b v b' v', In b (l_blocks m) -> In b' (l_blocks m) -> 0 <= v < lenz (k_uv b) -> 0 <= v' < lenz (k_uv b') ->
       num b v = num b' v' -> b = b' /\ v = v').
Proof.
  intros C HN fits GB EW. unfold write_lso, rmap in EW. apply bind_ok in EW. destruct EW as [ls [EL EW]].
  assert (text = unlines ls) as -> by congruence. clear EW. unfold lso_lines, write_vertices in EL. cbn zeta in EL.
  destruct (uvs_total m C HN fits) as [vl [rws [atoms [ps [E [NUM ->]]]]]]. rewrite E in EL. cbn [bind] in EL.
  destruct (write_tetrahedra_ok m C HN ps rws atoms NUM GB) as [WT HT]. rewrite WT in EL. cbn [bind] in EL.
  apply bind_ok in EL. destruct EL as [[[l1 e1] n1] [_ EL]]. apply bind_ok in EL. destruct EL as [[[l2 e2] n2] [_ EL]].
  apply bind_ok in EL. destruct EL as [[[l3 e3] n3] [_ EL]]. apply bind_ok in EL. destruct EL as [rls [_ EL]].
  pose proof (nb_others_nonneg _ HN) as HO. pose proof (lenz_nonneg (l_uv m)) as HL.
  destruct (numbered_lens _ _ _ _ _ _ _ NUM) as [Lp [Lr La]].
  assert (LP : lenz ps = lenz (l_uv m)) by (unfold lenz; lia).
  pose proof (numbered_atoms _ _ _ _ _ _ _ NUM) as HA.
  assert (exists c, shared_lines (add32 (lenz (l_uv m)) 1) atoms = shared_lines c atoms /\ c = lenz (l_uv m) + 1) as [c [ES Ec]].
  { exists (lenz (l_uv m) + 1). split; [|reflexivity]. destruct atoms as [|a r]; [reflexivity|]. rewrite lenz_cons in La. pose proof (lenz_nonneg r).
    rewrite add32_small by lia. reflexivity. }
  rewrite ES in EL.
  assert (EQ : forall b v, In b (l_blocks m) -> 0 <= v < lenz (k_uv b) -> corner_number rws b v = Ok (cn rws b v + 1)).
  { intros b v Hb Hv. apply (cn_ok m C HN ps rws atoms NUM b v Hb). pose proof (cu_len m C) as L. rewrite Forall_forall in L. specialize (L b Hb). unfold lenz in *. lia. }
  exists ([lit "GOCAD LightTSolid 1"] ++ write_header (l_title m) ++ write_CRS default_crs), (lso_vrtx_lines 0 ps ++ shared_lines c atoms),
    ([lit "MODEL"] ++ l1 ++ l2 ++ l3 ++ rls ++ [lit "END"]), ps, (fun b v => cn rws b v + 1).
  split; [|split; [|split; [assumption|split; [|split]]]].
  - f_equal. match type of EL with Ok ?x = _ => assert (ls = x) as -> by congruence end. rewrite <- !app_assoc. do 5 f_equal.
    apply (f_equal2 (@app bytes)); [|reflexivity]. unfold entries. clear. induction (l_blocks m) as [|b l IH]; [reflexivity|]. cbn [flat_map]. rewrite flat_map_app, IH. f_equal.
    induction (k_tets b) as [|t r IHt]; [reflexivity|]. cbn [map flat_map]. rewrite IHt. f_equal. unfold tet_lines. cbn [fst snd].
    destruct t as [[[x y] z] w]. reflexivity.
  - intros n line H. pose proof (nthz_range _ _ _ H) as R. apply nthz_app_inv in H. destruct H as [H|[j [Ej [Rj H]]]].
    + pose proof (nthz_range _ _ _ H) as R'. rewrite vrtx_lines_length in R'. destruct (nthz_in_range ps (n - 1)) as [p Hp]; [unfold lenz in *; lia|].
      pose proof (eq_trans (eq_sym (nthz_vrtx_lines ps 0 _ p Hp)) H) as H'. clear H. rename H' into H. replace (0 + (n - 1) + 1) with n in H by lia.
      assert (line = lit "VRTX " ++ show n ++ SP :: point_string p) as -> by congruence. rewrite words_vrtx by lia. eauto.
    + rewrite vrtx_lines_length in Ej. assert (Rj' : 0 <= j < lenz atoms).
      { pose proof (nthz_range _ _ _ H) as X. assert (L : forall a c, lenz (shared_lines c a) = lenz a) by (clear; induction a as [|x a IH]; intros c; [reflexivity|]; cbn [shared_lines]; now rewrite !lenz_cons, IH).
        rewrite L in X. lia. }
      destruct (nthz_in_range atoms j) as [a Ha]; [unfold lenz in *; lia|].
      assert (HB : c + lenz atoms < two32 + 1) by lia. pose proof (eq_trans (eq_sym (nthz_shared_lines atoms c j a ltac:(lia) HB Ha)) H) as H'. clear H. rename H' into H. rewrite Forall_forall in HA. specialize (HA a (nthz_in _ _ _ Ha)).
      replace (c + j) with n in H by lia. assert (line = lit "SHAREDVRTX " ++ show n ++ SP :: show a) as -> by congruence. rewrite words_shared by lia. eauto.
  - intros u p Hp. exact (vrtx_point_at m C ps rws atoms NUM u p Hp).
  - intros b v u Hb Hu. pose proof (nthz_range _ _ _ Hu) as R. specialize (EQ b v Hb R).
    destruct (corner_denotes m HN ps rws atoms NUM b v _ EQ) as [u' [Hu' [HD Rn]]]. assert (u' = u) as -> by congruence. clear Hu'.
    pose proof (cu_inside m C) as HI. rewrite Forall_forall in HI. specialize (HI b Hb). rewrite Forall_forall in HI. specialize (HI u (nthz_in _ _ _ Hu)).
    destruct (nthz_in_range ps u) as [p Hp]; [unfold lenz in *; lia|]. exists p. split; [assumption|].
    assert (HV : vrtx_at (lso_vrtx_lines 0 ps ++ shared_lines c atoms) (u + 1) p).
    { eexists. split; [apply nthz_app_l; replace (u + 1 - 1) with u by lia; exact (nthz_vrtx_lines ps 0 u p Hp)|]. rewrite Z.add_0_l. apply words_vrtx. lia. }
    set (n := cn rws b v + 1) in *. apply nthz_app_inv in HD. destruct HD as [HD|[j [Ej [Rj HD]]]].
    + left. pose proof (nthz_range _ _ _ HD) as X. unfold lenz in X. rewrite rangez_length in X. rewrite nthz_rangez in HD by (unfold lenz; lia).
      assert (n = u + 1) as -> by (assert (1 + (n - 1) = u + 1) by congruence; lia). exact HV.
    + right. unfold lenz in Ej. rewrite rangez_length in Ej. fold (lenz (l_uv m)) in Ej. exists (lit "SHAREDVRTX " ++ show n ++ SP :: show (u + 1)), (u + 1).
      split; [|split; [apply words_shared; lia|exact HV]].
      replace (n - 1) with (lenz (lso_vrtx_lines 0 ps) + j) by (rewrite vrtx_lines_length; lia). rewrite nthz_app_r by lia.
      rewrite (nthz_shared_lines atoms c j (u + 1)) by (lia || assumption). do 4 f_equal. lia.
  - intros b v b' v' Hb Hb' Hv Hv' EN. pose proof (EQ b v Hb Hv) as E1. pose proof (EQ b' v' Hb' Hv') as E2. cbn beta in EN. rewrite EN in E1.
    pose proof (corner_inj m ps rws atoms NUM b v b' v' _ E1 E2) as X. assert (EI : k_id b = k_id b') by congruence. split; [|congruence].
    pose proof (block_of_in m b C Hb) as B1. pose proof (block_of_in m b' C Hb') as B2. rewrite EI in B1. congruence.
Qed.
End Numbering.
Print Assumptions C45_vertex_numbers.

(** ** An example: two blocks of two and one tetrahedra with a common facet, a surface inside the first one. *)
Definition ex_uvs : list (list (Z * Z)) := [[(1, 0)]; [(2, 1); (1, 1)]; [(1, 2); (2, 3)]; [(1, 3); (2, 0)]; [(2, 2)]; [(1, 4)]].
Definition ex_west (name : bytes) : LBlock ExNum :=
  mkLBlock (F:=ExNum) 1 name [(0, 0, 0); (1, 0, 0); (0, 1, 0); (0, 0, 1); (-1, 0, 0)] [(0, 1, 2, 3); (4, 0, 2, 3)] [0; 1; 2; 3; 5] [11; 12].
Definition ex_east (name : bytes) : LBlock ExNum :=
  mkLBlock (F:=ExNum) 2 name [(0, 0, 1); (1, 0, 0); (1, 1, 1); (0, 1, 0)] [(0, 1, 2, 3)] [3; 1; 4; 2] [13; 11].
Definition ex_lsurfs : list LSurfW :=
  [mkLSurfW 11 [(0, 1, 2)] [1; 2; 3]; mkLSurfW 12 [(0, 1, 2); (0, 1, 3); (4, 0, 2); (4, 0, 3); (4, 2, 3)] [0; 1; 2; 3; 5];
   mkLSurfW 13 [(0, 1, 2); (0, 1, 3); (0, 2, 3)] [4; 1; 2; 3]; mkLSurfW 14 [(0, 1, 2)] [0; 2; 3]].
Definition ex_named (n1 n2 : bytes) : LModel ExNum :=
  mkLModel (F:=ExNum) (Some (lit "my model")) ex_uvs [ex_west n1; ex_east n2] ex_lsurfs
    [mkLColl (lit "H1") [11]] [mkLColl (lit "big  fault") [14]] [mkLColl (lit "box") [12; 13; 11]].
Definition ex_lso : LModel ExNum := ex_named (lit "west") (lit "east").
Definition ex_lsides (b s : Z) : option bool :=
  if (b =? 1) && (s =? 11) then Some true else if (b =? 2) && (s =? 13) then Some false else None.

(** Consistency of a concrete model. *)
Definition consistentb {F} (m : LModel F) : bool :=
  forallb (fun b => (List.length (k_uv b) =? List.length (k_points b))%nat && forallb (fun u => (0 <=? u) && (u <? lenz (l_uv m))) (k_uv b)) (l_blocks m) &&
  forallb (fun um => forallb (fun mv => existsb (fun b => k_id b =? fst mv) (l_blocks m) &&
             forallb (fun b => negb (k_id b =? fst mv) || match nthz (k_uv b) (snd mv) with Some u => u =? fst um | None => false end) (l_blocks m)) (snd um))
          (combine (rangez 0 (List.length (l_uv m))) (l_uv m)) &&
  forallb (fun b => forallb (fun vu => match nthz (l_uv m) (snd vu) with Some mvs => existsb (fun mv => (fst mv =? k_id b) && (snd mv =? fst vu)) mvs | None => false end)
                            (combine (rangez 0 (List.length (k_uv b))) (k_uv b))) (l_blocks m).
Lemma in_numbered {A} (l : list A) : forall z i x, nthz l i = Some x -> In (z + i, x) (combine (rangez z (List.length l)) l).
Proof.
  induction l as [|y l IH]; intros z i x H; [apply nthz_in in H; destruct H|]. rewrite nthz_cons in H. cbn [List.length rangez combine].
  destruct (Z.eqb_spec i 0) as [->|Ni]; [left; rewrite Z.add_0_r; congruence|]. right. replace (z + i) with (z + 1 + (i - 1)) by lia. now apply IH.
Qed.
Lemma consistentb_ok {F} (m : LModel F) : NoDup (map k_id (l_blocks m)) -> Forall (fun mvs => NoDup mvs) (l_uv m) -> consistentb m = true -> consistent m.
Proof.
  intros ND NM H. unfold consistentb in H. apply andb_true_iff in H. destruct H as [H H3]. apply andb_true_iff in H. destruct H as [H1 H2].
  rewrite forallb_forall in H1, H2, H3. split.
  - assumption.
  - apply Forall_forall. intros b Hb. specialize (H1 b Hb). apply andb_true_iff in H1. now apply Nat.eqb_eq.
  - apply Forall_forall. intros b Hb. specialize (H1 b Hb). apply andb_true_iff in H1. destruct H1 as [_ H1]. rewrite forallb_forall in H1.
    apply Forall_forall. intros u Hu. specialize (H1 u Hu). lia.
  - intros u mvs b v Hu Hb. split.
    + intros Hi. specialize (H2 _ (in_numbered (l_uv m) 0 u mvs Hu)). cbn [fst snd] in H2. rewrite forallb_forall in H2. specialize (H2 _ Hi). cbn [fst snd] in H2.
      apply andb_true_iff in H2. destruct H2 as [_ H2]. rewrite forallb_forall in H2. specialize (H2 b Hb). rewrite Z.eqb_refl in H2. cbn [negb orb] in H2.
      destruct (nthz (k_uv b) v) as [u'|]; [|discriminate]. apply Z.eqb_eq in H2. f_equal. lia.
    + intros Hv. specialize (H3 b Hb). rewrite forallb_forall in H3. specialize (H3 _ (in_numbered (k_uv b) 0 v u Hv)). cbn [fst snd] in H3. rewrite Hu in H3.
      apply existsb_exists in H3. destruct H3 as [[i w] [Hi E]]. cbn [fst snd] in E. apply andb_true_iff in E. destruct E as [E1 E2]. apply Z.eqb_eq in E1, E2.
      rewrite Z.add_0_l in E2. now subst.
  - intros mvs mv Hm Hv. apply nthz_of_in in Hm. destruct Hm as [u Hu]. specialize (H2 _ (in_numbered (l_uv m) 0 u mvs Hu)). cbn [fst snd] in H2.
    rewrite forallb_forall in H2. specialize (H2 _ Hv). apply andb_true_iff in H2. destruct H2 as [H2 _]. apply existsb_exists in H2. destruct H2 as [b [Hb E]].
    apply Z.eqb_eq in E. eauto.
  - assumption.
Qed.
Definition colocatedb (m : LModel ExNum) : bool :=
  forallb (fun b : LBlock ExNum => forallb (fun b' : LBlock ExNum => forallb (fun up : Z * point ExNum => forallb (fun up' : Z * point ExNum =>
     negb (fst up =? fst up') || zzz_eqb (snd up) (snd up')) (combine (k_uv b') (k_points b'))) (combine (k_uv b) (k_points b))) (l_blocks m)) (l_blocks m).
Lemma in_combine2 {A B} (a : list A) : forall (b : list B) i x y, nthz a i = Some x -> nthz b i = Some y -> In (x, y) (combine a b).
Proof.
  induction a as [|x0 a IH]; intros b i x y Hx Hy; [apply nthz_in in Hx; destruct Hx|]. destruct b as [|y0 b]; [apply nthz_in in Hy; destruct Hy|].
  rewrite nthz_cons in Hx. rewrite nthz_cons in Hy. cbn [combine]. destruct (i =? 0); [left; congruence|]. right. eauto.
Qed.
Lemma colocatedb_ok m : colocatedb m = true -> colocated m.
Proof.
  intros H u p q [b [v [Hb [Hu Hp]]]] [b' [v' [Hb' [Hu' Hq]]]]. unfold colocatedb in H. rewrite forallb_forall in H. specialize (H b Hb).
  rewrite forallb_forall in H. specialize (H b' Hb'). rewrite forallb_forall in H. specialize (H _ (in_combine2 _ _ _ _ _ Hu Hp)).
  rewrite forallb_forall in H. specialize (H _ (in_combine2 _ _ _ _ _ Hu' Hq)). cbn [fst snd] in H. rewrite Z.eqb_refl in H. cbn [negb orb] in H. now apply zzz_eqb_ok.
Qed.
Lemma plainb_ok l : forallb (fun c => negb (isspace c) || is_sep c) l = true -> plain l.
Proof.
  intros H. rewrite forallb_forall in H. apply Forall_forall. intros c Hc E. specialize (H c Hc). rewrite E in H. exact H.
Qed.
Ltac cases := repeat match goal with H : _ \/ _ |- _ => destruct H as [H|H] | H : False |- _ => destruct H end; subst.
Ltac nodup := repeat (apply NoDup_cons; [cbn [In]; intros HH; cases; discriminate || congruence || lia|]); apply NoDup_nil.
Lemma ex_consistent n1 n2 : consistent (ex_named n1 n2).
Proof.
  apply consistentb_ok; [cbn; nodup| |reflexivity]. cbn [ex_named l_uv ex_uvs]. repeat (apply Forall_cons; [nodup|]). constructor.
Qed.
Lemma ex_colocated n1 n2 : colocated (ex_named n1 n2).
Proof. apply colocatedb_ok. reflexivity. Qed.
Lemma ex_lso_ok : lso_ok ex_lso ex_lsides.
Proof.
  split.
  - apply ex_consistent.
  - apply ex_colocated.
  - cbn [ex_lso ex_named l_uv ex_uvs]. repeat (apply Forall_cons; [discriminate|]). constructor.
  - vm_compute. reflexivity.
  - discriminate.
  - cbn [ex_lso ex_named l_blocks]. repeat (apply Forall_cons; [split; [discriminate|]; cbn [k_tets ex_west ex_east k_points];
      repeat (apply Forall_cons; [cbn [quad_list]; repeat (apply Forall_cons; [vm_compute; split; (discriminate || reflexivity)|]); constructor|]); constructor|]). constructor.
  - cbn [ex_lso ex_named l_blocks]. repeat (apply Forall_cons; [apply tokenb_ok; reflexivity|]). constructor.
  - cbn. nodup.
  - cbn [ex_lso ex_named l_surfs ex_lsurfs]. repeat (apply Forall_cons; [split; cbn [f_tris f_uv];
      [discriminate
      |repeat (apply Forall_cons; [cbn [tri_list]; repeat (apply Forall_cons; [vm_compute; split; (discriminate || reflexivity)|]); apply Forall_nil|]); apply Forall_nil
      |repeat (apply Forall_cons; [vm_compute; split; (discriminate || reflexivity)|]); apply Forall_nil]|]). apply Forall_nil.
  - cbn [ex_lso ex_named collections l_horizons l_faults l_mbounds app].
    repeat (apply Forall_cons; [cbn [g_items]; repeat (apply Forall_cons; [cbn; tauto|]); constructor|]). constructor.
  - cbn [ex_lso ex_named collections l_horizons l_faults l_mbounds app g_name]. repeat (apply Forall_cons; [apply plainb_ok; reflexivity|]). constructor.
  - cbn [ex_lso ex_named l_blocks]. repeat (apply Forall_cons; [do 3 eexists; split; [reflexivity|]; split; [reflexivity|]; cbn; tauto|]). constructor.
  - intros t E. injection E as <-. apply lineb_ok. reflexivity.
Qed.

(** C45 on the example: east's first corner is line 7, a copy of line 4 at (0, 0, 1). *)
Example C45_example : exists text, write_lso ex_lso ex_lsides = Ok text /\
  In (lit "SHAREDVRTX 9 4") (pending (open_text text)) /\ In (lit "VRTX 4 0 0 1") (pending (open_text text)) /\ In (lit "TETRA 9 7 5 8") (pending (open_text text)) /\
  consistent ex_lso /\ Forall (fun mvs => mvs <> []) (l_uv ex_lso) /\ lenz (l_uv ex_lso) + nb_others (l_uv ex_lso) < two32 /\ Forall good_block (l_blocks ex_lso).
Proof.
  assert (H : match write_lso (F := ExNum) ex_lso ex_lsides with
              | Ok text => forallb (fun l => existsb (beq l) (pending (open_text text))) (map lit ["SHAREDVRTX 9 4"; "VRTX 4 0 0 1"; "TETRA 9 7 5 8"])
              | _ => false end = true) by (vm_compute; reflexivity).
  destruct (write_lso ex_lso ex_lsides) as [text| | |]; try discriminate. exists text. split; [reflexivity|].
  rewrite forallb_forall in H. assert (X : forall l, In l (map lit ["SHAREDVRTX 9 4"; "VRTX 4 0 0 1"; "TETRA 9 7 5 8"]) -> In l (pending (open_text text))).
  { intros l Hl. apply H in Hl. apply existsb_exists in Hl. destruct Hl as [l' [Hi E]]. apply beq_eq in E. now subst. }
  split; [apply X; cbn; tauto|]. split; [apply X; cbn; tauto|]. split; [apply X; cbn; tauto|]. pose proof ex_lso_ok as []. auto.
Qed.

(** ** C46: blocks keep their tetrahedra *)
Theorem C46_block_tetrahedra (F : Num) (m : LModel F) sides : num_ok F -> lso_ok m sides ->
  exists text m', write_lso m sides = Ok text /\ read_lso F text = Ok m' /\ Forall2 block_like (l_blocks m) (i_blocks m').
Proof.
  intros HF O. destruct (lso_saved HF m sides O) as [text [m' [E1 [E2 [_ [_ [HB _]]]]]]]. exists text, m'. split; [assumption|]. split; [assumption|].
  clear -HB. induction HB as [|b r l l' [H _] _ IH]; constructor; assumption.
Qed.
Print Assumptions C46_block_tetrahedra.
Example C46_example : num_ok ExNum /\ lso_ok ex_lso ex_lsides /\ map (fun b => lenz (k_tets b)) (l_blocks ex_lso) = [2; 1].
Proof. split; [exact ExNum_ok|]. split; [exact ex_lso_ok|reflexivity]. Qed.
(** The numbers of tetrahedra of the blocks of a loaded model. *)
Definition loaded_counts (w : res bytes) : res (list (bytes * Z)) :=
  do text <- w; do m' <- read_lso ExNum text; Ok (map (fun r => (r_name r, lenz (r_tets r))) (i_blocks m')).
Definition counts_are (r : res (list (bytes * Z))) (l : list (bytes * Z)) : bool :=
  match r with Ok x => leqb (fun a b => beq (fst a) (fst b) && (snd a =? snd b)) x l | _ => false end.
Lemma counts_are_ok (m : LModel ExNum) sides l : counts_are (loaded_counts (write_lso m sides)) l = true ->
  exists text m', write_lso m sides = Ok text /\ read_lso ExNum text = Ok m' /\ map (fun r => (r_name r, lenz (r_tets r))) (i_blocks m') = l.
Proof.
  unfold loaded_counts. destruct (write_lso m sides) as [text| | |]; try discriminate. cbn [bind]. destruct (read_lso ExNum text) as [m'| | |] eqn:E; try discriminate.
  cbn [bind counts_are]. intros H. exists text, m'. split; [reflexivity|]. split; [assumption|]. revert H. apply leqb_ok. intros [a b] [c d]. cbn [fst snd]. intros H.
  apply andb_true_iff in H. destruct H as [H1 H2]. apply beq_eq in H1. apply Z.eqb_eq in H2. congruence.
Qed.
(** Two blocks whose names have the same first word: each gets the tetrahedra of both. *)
Theorem C46_names_with_spaces_refuted : exists (m : LModel ExNum) sides text m', consistent m /\ colocated m /\ lso_saveable m = true /\
  NoDup (map k_name (l_blocks m)) /\ write_lso m sides = Ok text /\ read_lso ExNum text = Ok m' /\
  map (fun b => (k_name b, lenz (k_tets b))) (l_blocks m) = [(lit "upper east", 2); (lit "upper west", 1)] /\
  map (fun r => (r_name r, lenz (r_tets r))) (i_blocks m') = [(lit "upper", 3); (lit "upper", 3)].
Proof.
  destruct (counts_are_ok (ex_named (lit "upper east") (lit "upper west")) ex_lsides [(lit "upper", 3); (lit "upper", 3)]) as [text [m' [E1 [E2 E3]]]]; [vm_compute; reflexivity|].
  exists (ex_named (lit "upper east") (lit "upper west")), ex_lsides, text, m'. split; [apply ex_consistent|]. split; [apply ex_colocated|]. split; [reflexivity|].
  split; [cbn; nodup|]. split; [assumption|]. split; [assumption|]. split; [reflexivity|assumption].
Qed.
Print Assumptions C46_names_with_spaces_refuted.
(** The same for two blocks with the same name. *)
Theorem C46_equal_names_refuted : exists (m : LModel ExNum) sides text m', consistent m /\ colocated m /\ lso_saveable m = true /\
  Forall (fun b => token (k_name b)) (l_blocks m) /\ write_lso m sides = Ok text /\ read_lso ExNum text = Ok m' /\
  map (fun b => lenz (k_tets b)) (l_blocks m) = [2; 1] /\ map (fun r => lenz (r_tets r)) (i_blocks m') = [3; 3].
Proof.
  destruct (counts_are_ok (ex_named (lit "sand") (lit "sand")) ex_lsides [(lit "sand", 3); (lit "sand", 3)]) as [text [m' [E1 [E2 E3]]]]; [vm_compute; reflexivity|].
  exists (ex_named (lit "sand") (lit "sand")), ex_lsides, text, m'. split; [apply ex_consistent|]. split; [apply ex_colocated|]. split; [reflexivity|].
  split; [repeat (apply Forall_cons; [apply tokenb_ok; reflexivity|]); constructor|]. split; [assumption|]. split; [assumption|]. split; [reflexivity|].
  apply (f_equal (map snd)) in E3. rewrite map_map in E3. exact E3.
Qed.
Print Assumptions C46_equal_names_refuted.
(** A block with an empty name takes a wrong name and loses its tetrahedra. *)
Theorem C46_empty_name_refuted : exists (m : LModel ExNum) sides text m', consistent m /\ colocated m /\ lso_saveable m = true /\
  NoDup (map k_name (l_blocks m)) /\ write_lso m sides = Ok text /\ read_lso ExNum text = Ok m' /\
  map (fun b => lenz (k_tets b)) (l_blocks m) = [2; 1] /\ map (fun r => (r_name r, lenz (r_tets r))) (i_blocks m') = [(lit "+1", 0); (lit "east", 1)].
Proof.
  destruct (counts_are_ok (ex_named [] (lit "east")) ex_lsides [(lit "+1", 0); (lit "east", 1)]) as [text [m' [E1 [E2 E3]]]]; [vm_compute; reflexivity|].
  exists (ex_named [] (lit "east")), ex_lsides, text, m'. split; [apply ex_consistent|]. split; [apply ex_colocated|]. split; [reflexivity|].
  split; [cbn; nodup|]. split; [assumption|]. split; [assumption|]. split; [reflexivity|assumption].
Qed.
Print Assumptions C46_empty_name_refuted.

(** ** C79: vertex properties *)
(** For a file made of complete lines: [vl] its vertex lines, [pts] the positions they give, [src] the vertex line of each vertex of a block. *)
Theorem C79_vertex_values (F : Num) text (m' : LsoIn F) crs vp tp : nl (open_text text) = true -> read_lso F text = Ok m' ->
  lso_headers text = Ok (crs, vp, tp) -> good_header vp -> good_header tp ->
  exists before vl after pts vrows, pending (open_text text) = before ++ vl ++ after /\
    lenz pts = lenz vl /\ (forall v line, nthz vl v = Some line -> vertex_point crs pts line v) /\
    Forall2 (fun line row => line_values vp (value_pos line) line row) vl vrows /\
    Forall (fun r => exists src, NoDup src /\ Forall2 (fun v p => nthz pts v = Some p) src (r_points r) /\
      forall j n, nth_error (p_names vp) j = Some n -> exists a, find_attr n (r_vattrs r) = Some a /\
        Forall2 (fun v vals => exists row, nthz vrows v = Some row /\ nth_error row j = Some vals) src (a_vals a)) (i_blocks m').
Proof.
  intros N E EH GV GT. destruct (lso_content text m' crs vp tp N E EH GV GT) as [before [vl [mid [tl [after [pts [vrows [tets [trows [E1 [E2 [E3 [E4 [_ [_ HB]]]]]]]]]]]]]]].
  exists before, vl, (mid ++ flat_pairs tl ++ after), pts, vrows. split; [assumption|]. split; [assumption|]. split; [assumption|]. split; [assumption|].
  eapply Forall_impl; [|exact HB]. intros r [src []]. exists src. auto.
Qed.
Print Assumptions C79_vertex_values.

(** ** C47: tetrahedron properties *)
(** What the code does: tetrahedron [i] of a block gets the values of the TETRA line whose number is the number [src i] of the vertex line
    of *vertex* [i] of the block, and the no-data values when the block has less than i + 1 vertices. *)
Theorem C47_actual_values (F : Num) text (m' : LsoIn F) crs vp tp : nl (open_text text) = true -> read_lso F text = Ok m' ->
  lso_headers text = Ok (crs, vp, tp) -> good_header vp -> good_header tp ->
  exists before tl after tets trows pts, pending (open_text text) = before ++ flat_pairs tl ++ after /\
    Forall2 (tetra_of (lenz pts)) tl tets /\ Forall2 (fun ll row => line_values tp 5 (fst ll) row) tl trows /\
    Forall (fun r => exists src,
      (* its vertices, by the numbers of the vertex lines *)
      NoDup src /\ (forall v, In v src <-> exists t, In (t, r_name r) tets /\ In v (quad_list t)) /\ Forall2 (fun v p => nthz pts v = Some p) src (r_points r) /\
      (* its tetrahedra: those with its name, in the order of the file *)
      Forall2 (fun t t' => Forall2 (fun v i => nthz src i = Some v) (quad_list t) (quad_list t')) (map fst (filter (fun e => beq (snd e) (r_name r)) tets)) (r_tets r) /\
      (* their values *)
      forall j n, nth_error (p_names tp) j = Some n -> exists e d a,
        nth_error (p_esizes tp) j = Some e /\ nth_error (p_ndv tp) j = Some d /\ find_attr n (r_tattrs r) = Some a /\
        List.length (a_vals a) = List.length (r_tets r) /\ (List.length src <= List.length (r_tets r))%nat /\
        (forall i v, nth_error src i = Some v -> exists row vals, nthz trows v = Some row /\ nth_error row j = Some vals /\ nth_error (a_vals a) i = Some vals) /\
        (forall i, (List.length src <= i < List.length (r_tets r))%nat -> nth_error (a_vals a) i = Some (repeat d (Z.to_nat e)))) (i_blocks m').
Proof.
  intros N E EH GV GT. destruct (lso_content text m' crs vp tp N E EH GV GT) as [before [vl [mid [tl [after [pts [vrows [tets [trows [E1 [E2 [E3 [E4 [E5 [E6 HB]]]]]]]]]]]]]]].
  exists (before ++ vl ++ mid), tl, after, tets, trows, pts. split; [rewrite E1, <- !app_assoc; reflexivity|]. split; [assumption|]. split; [assumption|].
  eapply Forall_impl; [|exact HB]. intros r [src []]. exists src. repeat (split; [assumption|]). assumption.
Qed.
Print Assumptions C47_actual_values.

(** An octahedron cut in eight, one property on the vertices and one on the tetrahedra. *)
Definition props (pre name : string) : list bytes :=
  map lit [pre ++ "PROPERTIES " ++ name; pre ++ "PROP_LEGAL_RANGES **none** **none**"; pre ++ "NO_DATA_VALUES -99999"; pre ++ "PROPERTY_CLASSES " ++ name;
           pre ++ "PROPERTY_KINDS Length"; pre ++ "PROPERTY_SUBCLASSES QUANTITY Float"; pre ++ "ESIZES 1"; pre ++ "UNITS m"]%string.
Definition lso_top : list bytes := map lit ["GOCAD LightTSolid 1"; "HEADER {"; "name: octahedron"; "}"].
Definition octahedron : list bytes :=
  lso_top ++ props "" "depth" ++ props "TETRA_" "facies" ++
  map lit ["PVRTX 1 1 0 0 101"; "PVRTX 2 -1 0 0 102"; "PVRTX 3 0 1 0 103"; "PVRTX 4 0 -1 0 104"; "PVRTX 5 0 0 1 105"; "PVRTX 6 0 0 -1 106"; "PVRTX 7 0 0 0 107";
           "TETRA 7 1 3 5 10"; "# CTETRA sand none none none none"; "TETRA 7 1 3 6 20"; "# CTETRA sand none none none none";
           "TETRA 7 1 4 5 30"; "# CTETRA sand none none none none"; "TETRA 7 1 4 6 40"; "# CTETRA sand none none none none";
           "TETRA 7 2 3 5 50"; "# CTETRA sand none none none none"; "TETRA 7 2 3 6 60"; "# CTETRA sand none none none none";
           "TETRA 7 2 4 5 70"; "# CTETRA sand none none none none"; "TETRA 7 2 4 6 80"; "# CTETRA sand none none none none";
           "MODEL"; "SURFACE top"; "TFACE 1"; "KEYVERTICES 1 3 5"; "TRGL 1 3 5"; "TRGL 1 4 5"; "MODEL_REGION sand +1"; "END"].
Definition one_block (r : res (LsoIn ExNum)) : res (LBlockR ExNum) :=
  do m <- r; match i_blocks m with [b] => Ok b | _ => UB end.
Definition values_are (n : bytes) (l : list (bytes * attr (num ExNum))) (vals : list (list Z)) : bool :=
  match find_attr n l with Some a => leqb (leqb Z.eqb) (a_vals a) vals | None => false end.
Lemma octahedron_loaded : match one_block (read_lso ExNum (unlines octahedron)) with
  | Ok r => values_are "depth" (r_vattrs r) [[107]; [101]; [103]; [105]; [106]; [104]; [102]] &&
            values_are "facies" (r_tattrs r) [[70]; [10]; [30]; [50]; [60]; [40]; [20]; [-99999]]
  | _ => false end = true.
Proof. vm_compute. reflexivity. Qed.
Definition TETRA_lines (ls : list bytes) : list bytes := filter (fun l => starts_with l "TETRA ") ls.
(** The property is false: no tetrahedron of this file gets its value. *)
Theorem C47_tetrahedron_values_refuted : exists text (m' : LsoIn ExNum) r a,
  read_lso ExNum text = Ok m' /\ i_blocks m' = [r] /\ find_attr "facies" (r_tattrs r) = Some a /\
  map (fun l => nth 5 (string_split l) []) (TETRA_lines (pending (open_text text))) = map show [10; 20; 30; 40; 50; 60; 70; 80] /\
  a_vals a = [[70]; [10]; [30]; [50]; [60]; [40]; [20]; [-99999]].
Proof.
  pose proof octahedron_loaded as H. unfold one_block in H. destruct (read_lso ExNum (unlines octahedron)) as [m'| | |] eqn:E; [|discriminate H|discriminate H|discriminate H]. cbn [bind] in H.
  destruct (i_blocks m') as [|r [|]] eqn:EB; [discriminate H| |discriminate H]. apply andb_true_iff in H. destruct H as [_ H]. unfold values_are in H.
  destruct (find_attr "facies" (r_tattrs r)) as [a|] eqn:EA; [|discriminate H]. exists (unlines octahedron), m', r, a.
  split; [assumption|]. split; [assumption|]. split; [assumption|]. split.
  - assert (X : leqb beq (map (fun l => nth 5 (string_split l) []) (TETRA_lines (pending (open_text (unlines octahedron))))) (map show [10; 20; 30; 40; 50; 60; 70; 80]) = true) by (vm_compute; reflexivity).
    apply leqb_ok in X; [assumption|]. intros x y. apply beq_eq.
  - revert H. apply leqb_ok. intros x y. apply leqb_ok. intros u v. apply Z.eqb_eq.
Qed.
Print Assumptions C47_tetrahedron_values_refuted.
(** And loading a single tetrahedron with a property writes outside the values of the attribute. *)
Definition single (with_property : bool) : list bytes :=
  lso_top ++ (if with_property then props "TETRA_" "facies" else []) ++
  map lit ["VRTX 1 0 0 0"; "VRTX 2 1 0 0"; "VRTX 3 0 1 0"; "VRTX 4 0 0 1"; if with_property then "TETRA 1 2 3 4 10" else "TETRA 1 2 3 4"; "# CTETRA sand none none none none";
           "MODEL"; "SURFACE top"; "TFACE 1"; "KEYVERTICES 1 2 3"; "TRGL 1 2 3"; "MODEL_REGION sand +1"; "END"]%string.
Theorem C47_single_tetrahedron_refuted : (exists m', read_lso ExNum (unlines (single false)) = Ok m') /\ read_lso ExNum (unlines (single true)) = UB.
Proof.
  split.
  - assert (H : match read_lso ExNum (unlines (single false)) with Ok _ => true | _ => false end = true) by (vm_compute; reflexivity).
    destruct (read_lso ExNum (unlines (single false))) as [m'| | |]; try discriminate. eauto.
  - apply is_UB_ok. vm_compute. reflexivity.
Qed.
Print Assumptions C47_single_tetrahedron_refuted.
(** The hypotheses of C47_actual_values and C79 on the octahedron. *)
Example C79_example : exists m' crs vp tp, nl (open_text (unlines octahedron)) = true /\ read_lso ExNum (unlines octahedron) = Ok m' /\
  lso_headers (F := ExNum) (unlines octahedron) = Ok (crs, vp, tp) /\ good_header vp /\ good_header tp /\ p_names vp = [lit "depth"] /\ p_names tp = [lit "facies"].
Proof.
  pose proof octahedron_loaded as H. unfold one_block in H. destruct (read_lso ExNum (unlines octahedron)) as [m'| | |]; try discriminate. clear H.
  assert (H : match lso_headers (F := ExNum) (unlines octahedron) with
              | Ok (crs, vp, tp) => leqb beq (p_names vp) [lit "depth"] && leqb beq (p_names tp) [lit "facies"] && leqb Z.eqb (p_esizes vp) [1] && leqb Z.eqb (p_esizes tp) [1]
                  && leqb Z.eqb (p_ndv vp) [-99999] && leqb Z.eqb (p_ndv tp) [-99999]
              | _ => false end = true) by (vm_compute; reflexivity).
  destruct (lso_headers (unlines octahedron)) as [[[crs vp] tp]| | |]; try discriminate. exists m', crs, vp, tp.
  repeat (apply andb_true_iff in H; destruct H as [H ?]).
  assert (Z_ok : forall u v, (u =? v) = true -> u = v) by (intros; now apply Z.eqb_eq). assert (b_ok : forall u v, beq u v = true -> u = v) by (intros u v; apply beq_eq).
  repeat match goal with K : leqb Z.eqb _ _ = true |- _ => apply (leqb_ok Z.eqb Z_ok) in K end.
  repeat match goal with K : leqb beq _ _ = true |- _ => apply (leqb_ok beq b_ok) in K end.
  split; [vm_compute; reflexivity|]. split; [reflexivity|]. split; [reflexivity|].
  split; [|split; [|auto]]; split;
    repeat match goal with K : p_names _ = _ |- _ => rewrite K; clear K | K : p_esizes _ = _ |- _ => rewrite K; clear K | K : p_ndv _ = _ |- _ => rewrite K; clear K end;
    try reflexivity; repeat constructor; try lia; intros [].
Qed.

(** ** C48: surfaces and blocks of a loaded file *)
(** In any file that is read, whose copied vertices follow all the others and whose surfaces have no common triangle: if each triangle
    of a surface is a facet of [n] tetrahedra of a block, the surface is a boundary of the block iff n = 1, internal to it iff n = 2. *)
Theorem C48_relations (F : Num) text (m' : LsoIn F) r k h n : copies_last (pending (open_text text)) -> read_lso F text = Ok m' -> apart (i_surfs m') ->
  In r (i_blocks m') -> nthz (i_surfs m') k = Some h -> h_tris h <> [] -> all_different (tris_uv h) ->
  (forall t, In t (tris_uv h) -> facets_at (facets_uv r) t = n) ->
  (In k (r_bounds r) <-> n = 1) /\ (In k (r_internals r) <-> n = 2).
Proof. apply relation_exact. Qed.
Print Assumptions C48_relations.

(** ** C80: relations of a saved model, once loaded *)
Lemma Forall2_impl' {A B} (P Q : A -> B -> Prop) l l' : (forall a b, P a b -> Q a b) -> Forall2 P l l' -> Forall2 Q l l'.
Proof. intros H. induction 1; constructor; auto. Qed.
Definition conforming {F} (m : LModel F) (internals : Z -> list Z) : Prop :=
  forall b s, In b (l_blocks m) -> In s (l_surfs m) ->
    forall t, In t (surface_triangles s) ->
      facets_at (block_facets b) t = (if existsb (Z.eqb (f_id s)) (k_bounds b) then 1 else if existsb (Z.eqb (f_id s)) (internals (k_id b)) then 2 else 0).
Theorem C80_relations_restored (F : Num) (m : LModel F) sides internals : num_ok F -> lso_ok m sides -> saved_apart m -> conforming m internals ->
  (forall s, In s (l_surfs m) -> f_tris s <> [] /\ all_different (surface_triangles s)) ->
  (forall b i, In b (l_blocks m) -> In i (internals (k_id b)) -> ~ In i (k_bounds b)) ->
  exists text m' ids, write_lso m sides = Ok text /\ read_lso F text = Ok m' /\
    (* the surfaces of the loaded model: each collected surface once *)
    NoDup ids /\ (forall i, In i ids <-> exists c, In c (l_horizons m ++ l_faults m ++ l_mbounds m) /\ In i (g_items c)) /\
    Forall2 (fun i h => exists s, In s (l_surfs m) /\ f_id s = i /\ tris_uv h = surface_triangles s) ids (i_surfs m') /\
    (* their relations with the blocks *)
    Forall2 (fun b r => r_name r = k_name b /\ forall k i, nthz ids k = Some i ->
               (In k (r_bounds r) <-> In i (k_bounds b)) /\ (In k (r_internals r) <-> In i (internals (k_id b)))) (l_blocks m) (i_blocks m').
Proof.
  intros HF O SA CF HT HI. destruct (lso_saved HF m sides O) as [text [m' [E1 [E2 [_ [_ [HB [HS _]]]]]]]]. exists text, m', (all_ids m).
  pose proof (written_copies_last HF m sides O text E1) as CL. pose proof (loaded_apart m _ SA HS) as AP.
  split; [assumption|]. split; [assumption|]. split; [apply fresh_nodup|]. split.
  { intros i. unfold all_ids. rewrite fresh_in. rewrite in_flat_map. unfold collections. cbn [In]. tauto. }
  split.
  { clear -HS. induction HS as [|i h l l' [s [nm [Es [_ Fs]]]] _ IH]; constructor; [|assumption]. apply lsurf_id in Es. destruct Es as [Hs Hi].
    exists s. split; [assumption|]. split; [assumption|]. eapply surface_from_tris; exact Fs. }
  assert (HBr : Forall2 (fun b r => (In b (l_blocks m) /\ In r (i_blocks m')) /\ block_like b r) (l_blocks m) (i_blocks m')).
  { clear -HB. assert (G : forall L R, incl (l_blocks m) L -> incl (i_blocks m') R -> Forall2 (fun b r => (In b L /\ In r R) /\ block_like b r) (l_blocks m) (i_blocks m')).
    { induction HB as [|b r l l' [H _] _ IH]; intros L R HL HR; constructor.
      - split; [split; [apply HL|apply HR]; now left|assumption].
      - apply IH; intros x Hx; [apply HL|apply HR]; now right. }
    apply G; intros x; auto. }
  clear HB. revert HBr. apply Forall2_impl'. intros b r [[Hb Hr] BL]. split; [exact (proj1 BL)|]. intros k i Hk.
  destruct (Forall2_nthz _ _ _ HS k i Hk) as [h [Hh [s [nm [Es [_ Fs]]]]]]. apply lsurf_id in Es. destruct Es as [Hs Hi].
  pose proof (surface_from_tris m _ _ _ Fs) as ET. destruct (HT s Hs) as [NE AD].
  assert (h_tris h <> []) as NE'. { intros X. apply NE. unfold tris_uv in ET. rewrite X in ET. unfold surface_triangles in ET. destruct (f_tris s); [reflexivity|discriminate]. }
  rewrite <- ET in AD.
  set (n := if existsb (Z.eqb (f_id s)) (k_bounds b) then 1 else if existsb (Z.eqb (f_id s)) (internals (k_id b)) then 2 else 0).
  destruct (relation_exact text m' r k h n CL E2 AP Hr Hh NE' AD) as [R1 R2].
  { intros t Ht. rewrite (block_like_facets _ _ BL). rewrite ET in Ht. now apply CF. }
  assert (mem : forall l, existsb (Z.eqb (f_id s)) l = true <-> In i l).
  { intros l. rewrite existsb_exists, Hi. split; [intros [x [Hx E]]; apply Z.eqb_eq in E; now subst|intros H; exists i; split; [assumption|apply Z.eqb_refl]]. }
  rewrite R1, R2. unfold n. clear R1 R2 n CF. pose proof (mem (k_bounds b)) as M1. pose proof (mem (internals (k_id b))) as M2. specialize (HI b i Hb).
  destruct (existsb _ (k_bounds b)), (existsb _ (internals (k_id b))); intuition (try lia; try discriminate).
Qed.
Print Assumptions C80_relations_restored.

(** The hypotheses on the example. *)
Definition saved_apartb {F} (m : LModel F) : bool :=
  forallb (fun s => forallb (fun s' => (f_id s =? f_id s') ||
    forallb (fun t => forallb (fun t' => negb (same_cornersb t t')) (surface_triangles s')) (surface_triangles s)) (l_surfs m)) (l_surfs m).
Lemma saved_apartb_ok {F} (m : LModel F) : saved_apartb m = true -> saved_apart m.
Proof.
  unfold saved_apartb. rewrite forallb_forall. intros H s s' t t' Hs Hs' Ht Ht' E. specialize (H s Hs). rewrite forallb_forall in H. specialize (H s' Hs').
  apply orb_true_iff in H. destruct H as [H|H]; [now apply Z.eqb_eq|]. rewrite forallb_forall in H. specialize (H t Ht). rewrite forallb_forall in H. specialize (H t' Ht').
  apply same_cornersb_ok in E. rewrite E in H. discriminate.
Qed.
Fixpoint all_differentb (T : list tri) : bool :=
  match T with [] => true | t :: T' => forallb (fun t' => negb (same_cornersb t t')) T' && all_differentb T' end.
Lemma all_differentb_ok T : all_differentb T = true -> all_different T.
Proof.
  induction T as [|t T IH]; cbn [all_differentb]; [constructor|]. intros H. apply andb_true_iff in H. destruct H as [H1 H2]. constructor; [|now apply IH].
  apply Forall_forall. intros t' Ht' E. rewrite forallb_forall in H1. specialize (H1 t' Ht'). apply same_cornersb_ok in E. rewrite E in H1. discriminate.
Qed.
Definition ex_internals (b : Z) : list Z := if b =? 1 then [14] else [].
Example C80_example : num_ok ExNum /\ lso_ok ex_lso ex_lsides /\ saved_apart ex_lso /\ conforming ex_lso ex_internals /\
  (forall s, In s (l_surfs ex_lso) -> f_tris s <> [] /\ all_different (surface_triangles s)) /\
  (forall b i, In b (l_blocks ex_lso) -> In i (ex_internals (k_id b)) -> ~ In i (k_bounds b)) /\
  map k_bounds (l_blocks ex_lso) = [[11; 12]; [13; 11]] /\ map (fun b => ex_internals (k_id b)) (l_blocks ex_lso) = [[14]; []].
Proof.
  split; [exact ExNum_ok|]. split; [exact ex_lso_ok|]. split; [apply saved_apartb_ok; vm_compute; reflexivity|]. split.
  { assert (H : forallb (fun b => forallb (fun s => forallb (fun t => facets_at (block_facets b) t =?
      (if existsb (Z.eqb (f_id s)) (k_bounds b) then 1 else if existsb (Z.eqb (f_id s)) (ex_internals (k_id b)) then 2 else 0))
      (surface_triangles s)) (l_surfs ex_lso)) (l_blocks ex_lso) = true) by (vm_compute; reflexivity).
    intros b s Hb Hs t Ht. rewrite forallb_forall in H. specialize (H b Hb). rewrite forallb_forall in H. specialize (H s Hs). rewrite forallb_forall in H.
    specialize (H t Ht). now apply Z.eqb_eq. }
  split.
  { intros s Hs. split; [|apply all_differentb_ok]; cbn [ex_lso ex_named l_surfs ex_lsurfs In] in Hs; repeat (destruct Hs as [<-|Hs]; [discriminate || reflexivity|]); destruct Hs. }
  split; [|split; reflexivity].
  intros b i Hb Hi. cbn [ex_lso ex_named l_blocks In] in Hb. destruct Hb as [<-|[<-|[]]]; cbn in *; intuition lia.
Qed.
(** The example satisfies the hypotheses of C48 too. *)
Example C48_example : exists text (m' : LsoIn ExNum), copies_last (pending (open_text text)) /\ read_lso ExNum text = Ok m' /\ apart (i_surfs m') /\
  exists r, In r (i_blocks m') /\ (exists k h, nthz (i_surfs m') k = Some h /\ h_tris h <> [] /\ all_different (tris_uv h) /\ forall t, In t (tris_uv h) -> facets_at (facets_uv r) t = 1) /\
    (exists k h, nthz (i_surfs m') k = Some h /\ h_tris h <> [] /\ all_different (tris_uv h) /\ forall t, In t (tris_uv h) -> facets_at (facets_uv r) t = 2).
Proof.
  destruct (lso_saved ExNum_ok ex_lso ex_lsides ex_lso_ok) as [text [m' [E1 [E2 [_ [_ [HB [HS _]]]]]]]]. exists text, m'.
  split; [exact (written_copies_last ExNum_ok _ _ ex_lso_ok text E1)|]. split; [assumption|].
  split; [exact (loaded_apart ex_lso _ (saved_apartb_ok ex_lso ltac:(vm_compute; reflexivity)) HS)|].
  destruct C80_example as [_ [_ [_ [CF [ET _]]]]].
  destruct (i_blocks m') as [|r rs]; [inversion HB|]. inversion HB as [|b0 ? ? ? [BL _] _ EQ]; subst. exists r. split; [now left|].
  assert (X : forall k i, nthz (all_ids ex_lso) k = Some i -> exists h, nthz (i_surfs m') k = Some h /\ h_tris h <> [] /\ all_different (tris_uv h) /\
    forall t, In t (tris_uv h) -> facets_at (facets_uv r) t = (if existsb (Z.eqb i) [11; 12] then 1 else if existsb (Z.eqb i) [14] then 2 else 0)).
  { intros k i Hk. destruct (Forall2_nthz _ _ _ HS k i Hk) as [h [Hh [s [nm [Es [_ Fs]]]]]]. apply lsurf_id in Es. destruct Es as [Hs Hi].
    pose proof (surface_from_tris ex_lso _ _ _ Fs) as EQT. destruct (ET s Hs) as [NE AD]. exists h. split; [assumption|].
    split. { intros Z. apply NE. unfold tris_uv in EQT. rewrite Z in EQT. unfold surface_triangles in EQT. destruct (f_tris s); [reflexivity|discriminate EQT]. }
    rewrite EQT. split; [assumption|]. intros t Ht. rewrite (block_like_facets _ _ BL). rewrite <- Hi.
    exact (CF (ex_west (lit "west")) s (or_introl eq_refl) Hs t Ht). }
  split; [destruct (X 0 11 eq_refl) as [h H]; exists 0, h; exact H|destruct (X 1 14 eq_refl) as [h H]; exists 1, h; exact H].
Qed.
(** Not "only if": the number of facets is divided by the number of triangles, so a surface is also a boundary when one of its two triangles
    is a facet of two tetrahedra of the block. *)
Definition half_inside : list bytes :=
  lso_top ++ map lit ["VRTX 1 0 0 0"; "VRTX 2 1 0 0"; "VRTX 3 0 1 0"; "VRTX 4 0 0 1"; "VRTX 5 -1 0 0";
           "TETRA 1 2 3 4"; "# CTETRA sand none none none none"; "TETRA 5 1 3 4"; "# CTETRA sand none none none none";
           "MODEL"; "SURFACE top"; "TFACE 1"; "KEYVERTICES 1 3 4"; "TRGL 1 3 4"; "TRGL 2 3 4"; "MODEL_REGION sand +1"; "END"].
Theorem C48_only_if_refuted : exists text (m' : LsoIn ExNum) r h t1 t2, read_lso ExNum text = Ok m' /\ i_blocks m' = [r] /\ i_surfs m' = [h] /\ i_inspect m' = false /\
  tris_uv h = [t1; t2] /\ facets_at (facets_uv r) t1 = 2 /\ facets_at (facets_uv r) t2 = 1 /\ In 0 (r_bounds r).
Proof.
  assert (H : match read_lso ExNum (unlines half_inside) with
              | Ok m' => negb (i_inspect m') && match i_blocks m', i_surfs m' with
                  | [r], [h] => match tris_uv h with
                      | [t1; t2] => (facets_at (facets_uv r) t1 =? 2) && (facets_at (facets_uv r) t2 =? 1) && existsb (Z.eqb 0) (r_bounds r)
                      | _ => false end
                  | _, _ => false end
              | _ => false end = true) by (vm_compute; reflexivity).
  destruct (read_lso ExNum (unlines half_inside)) as [m'| | |] eqn:E; [|discriminate H|discriminate H|discriminate H].
  apply andb_true_iff in H. destruct H as [HI H]. apply negb_true_iff in HI.
  destruct (i_blocks m') as [|r [|]] eqn:EB; [discriminate H| |discriminate H]. destruct (i_surfs m') as [|h [|]] eqn:ES; [discriminate H| |discriminate H].
  destruct (tris_uv h) as [|t1 [|t2 [|]]] eqn:ET; [discriminate H|discriminate H| |discriminate H].
  apply andb_true_iff in H. destruct H as [H H3]. apply andb_true_iff in H. destruct H as [H1 H2]. apply Z.eqb_eq in H1, H2.
  apply existsb_exists in H3. destruct H3 as [x [Hx Ex]]. apply Z.eqb_eq in Ex. subst x.
  exists (unlines half_inside), m', r, h, t1, t2. repeat (split; [assumption|]). assumption.
Qed.
Print Assumptions C48_only_if_refuted.
(** The reader looks up the vertices of a triangle, numbers of vertex lines, in a table indexed by unique vertices: a file with a copied
    vertex before another one, or with a triangle given by a copied vertex, makes it read outside this table. *)
Definition copy_file (vertices : list string) (tetra trgl : string) : list bytes :=
  lso_top ++ map lit vertices ++ map lit [tetra; "# CTETRA sand none none none none"; "MODEL"; "SURFACE top"; "TFACE 1"; "KEYVERTICES 1 1 1"; trgl; "MODEL_REGION sand +1"; "END"].
Theorem C48_copied_vertex_refuted :
  (exists m', read_lso ExNum (unlines (copy_file ["VRTX 1 0 0 0"; "VRTX 2 1 0 0"; "VRTX 3 0 1 0"; "VRTX 4 0 0 1"; "SHAREDVRTX 5 1"] "TETRA 5 2 3 4" "TRGL 1 2 4")) = Ok m') /\
  read_lso ExNum (unlines (copy_file ["VRTX 1 0 0 0"; "VRTX 2 1 0 0"; "VRTX 3 0 1 0"; "VRTX 4 0 0 1"; "SHAREDVRTX 5 1"] "TETRA 5 2 3 4" "TRGL 5 2 4")) = UB /\
  read_lso ExNum (unlines (copy_file ["VRTX 1 0 0 0"; "SHAREDVRTX 2 1"; "VRTX 3 1 0 0"; "VRTX 4 0 1 0"; "VRTX 5 0 0 1"] "TETRA 1 3 4 5" "TRGL 1 3 5")) = UB.
Proof.
  split; [|split; apply is_UB_ok; vm_compute; reflexivity].
  match goal with |- exists m', ?r = _ => assert (H : match r with Ok _ => true | _ => false end = true) by (vm_compute; reflexivity); destruct r as [m'| | |]; try discriminate H end.
  now exists m'.
Qed.
Print Assumptions C48_copied_vertex_refuted.

(** ** C81: reading terminates *)
Theorem C81_reading_ends (F : Num) text : nl (open_text text) = true -> read_lso F text <> Hang.
Proof. apply read_lso_ends. Qed.
Print Assumptions C81_reading_ends.
Example C81_example : nl (open_text (unlines octahedron)) = true /\ nl (open_text (unlines (map lit ["GOCAD LightTSolid 1"; "SURFACE"]))) = true.
Proof. split; vm_compute; reflexivity. Qed.
(** The end of the file is not looked at: a file whose last line is cut short in the surfaces or the blocks is read for ever. *)
Theorem C81_cut_file_refuted : forall cut, In cut (map lit ["SURFACE top"; "TFACE 1"; "MODEL_REGION sand +1"]) ->
  read_lso ExNum (unlines (lso_top ++ map lit ["VRTX 1 0 0 0"; "VRTX 2 1 0 0"; "VRTX 3 0 1 0"; "VRTX 4 0 0 1"; "TETRA 1 2 3 4"; "# CTETRA sand none none none none"; "MODEL"]
     ++ map lit ["SURFACE top"; "TFACE 1"; "KEYVERTICES 1 2 3"; "TRGL 1 2 3"]) ++ cut) = Hang.
Proof. intros cut H. cbn [map In] in H. repeat (destruct H as [<-|H]; [apply is_Hang_ok; vm_compute; reflexivity|]). destruct H. Qed.
Print Assumptions C81_cut_file_refuted.

(** ** C82: faults and model boundaries *)
(** A loaded model only has horizons: a saved fault or model boundary with a surface of its own is loaded as a horizon. *)
Theorem C82_collections_become_horizons (F : Num) (m : LModel F) sides c i : num_ok F -> lso_ok m sides ->
  In c (l_faults m ++ l_mbounds m) -> In i (g_items c) -> (forall c', In c' (collections m) -> In i (g_items c') -> c' = c) ->
  exists text m' a b k h, write_lso m sides = Ok text /\ read_lso F text = Ok m' /\
    In (normalise (g_name c), a, b) (i_horizons m') /\ a <= k < b /\ nthz (i_surfs m') k = Some h /\ exists s, lsurf_of m i = Ok s /\ tris_uv h = surface_triangles s.
Proof.
  intros HF O Hc Hi HU. destruct (lso_saved HF m sides O) as [text [m' [E1 [E2 [_ [_ [_ [HS HH]]]]]]]]. exists text, m'.
  assert (HA : In i (all_ids m)).
  { apply fresh_in. split; [|intros []]. apply in_flat_map. exists c. split; [|assumption]. unfold collections. apply in_or_app. now right. }
  assert (exists k, nthz (all_ids m) k = Some i) as [k Hk].
  { clear -HA. induction (all_ids m) as [|x l IH]; [destruct HA|]. destruct HA as [->|HA]; [exists 0; reflexivity|]. destruct (IH HA) as [k Hk]. exists (k + 1).
    pose proof (nthz_range _ _ _ Hk). rewrite nthz_cons. destruct (Z.eqb_spec (k + 1) 0); [lia|]. replace (k + 1 - 1) with k by lia. assumption. }
  destruct (Forall2_nthz _ _ _ HS k i Hk) as [h [Hh [s [nm [Es [[pre [c' [post [EC [Hc' [_ ->]]]]]] Fs]]]]]].
  assert (c' = c) as ->. { apply HU; [|assumption]. rewrite EC. apply in_or_app. right. now left. }
  destruct (HH k h Hh) as [a [b [Hab Rk]]]. exists a, b, k, h. split; [assumption|]. split; [assumption|]. rewrite (proj1 Fs) in Hab. split; [assumption|]. split; [assumption|].
  split; [assumption|]. exists s. split; [assumption|]. eapply surface_from_tris; exact Fs.
Qed.
Print Assumptions C82_collections_become_horizons.
Example C82_example : num_ok ExNum /\ lso_ok ex_lso ex_lsides /\ let c := mkLColl (lit "big  fault") [14] in
  In c (l_faults ex_lso ++ l_mbounds ex_lso) /\ In 14 (g_items c) /\ (forall c', In c' (collections ex_lso) -> In 14 (g_items c') -> c' = c) /\ normalise (g_name c) = lit "big fault".
Proof.
  split; [exact ExNum_ok|]. split; [exact ex_lso_ok|]. cbn zeta. split; [now left|]. split; [now left|]. split; [|vm_compute; reflexivity].
  intros c' Hc' Hi. cbn [ex_lso ex_named collections l_horizons l_faults l_mbounds app In] in Hc'. repeat (destruct Hc' as [<-|Hc']; [cbn [g_items In] in Hi; first [reflexivity|exfalso; intuition lia]|]). destruct Hc'.
Qed.

(** ** C83: the warning of a model to inspect *)
(** read_file returns false (model to inspect) iff a triangle of a surface is a facet of no tetrahedron of the file, or the number of facets
    of a block on a surface, divided by the number of triangles of the surface, is neither 1 nor 2.
    [T]: for each tetrahedron of the file its facets, by unique vertices, and the name of its block. *)
Theorem C83_inspection (F : Num) text (m' : LsoIn F) : copies_last (pending (open_text text)) -> read_lso F text = Ok m' -> apart (i_surfs m') ->
  exists T : list (list tri * bytes),
    Forall (fun r => facets_uv r = flat_map fst (filter (fun e => beq (snd e) (r_name r)) T)) (i_blocks m') /\
    (i_inspect m' = true <->
      (exists h t, In h (i_surfs m') /\ In t (tris_uv h) /\ forall e f, In e T -> In f (fst e) -> ~ same_corners f t) \/
      (exists r h, In r (i_blocks m') /\ In h (i_surfs m') /\
         0 < count_on r h /\ count_on r h / lenz (h_tris h) <> 1 /\ count_on r h / lenz (h_tris h) <> 2)).
Proof. apply lso_inspect. Qed.
Print Assumptions C83_inspection.
(** A saved conforming model, each surface of which touches a block, is loaded without warning. *)
Theorem C83_saved_model_clean (F : Num) (m : LModel F) sides internals : num_ok F -> lso_ok m sides -> saved_apart m -> conforming m internals ->
  (forall s, In s (l_surfs m) -> f_tris s <> [] /\ all_different (surface_triangles s)) ->
  (forall s, In s (l_surfs m) -> exists b, In b (l_blocks m) /\ (In (f_id s) (k_bounds b) \/ In (f_id s) (internals (k_id b)))) ->
  exists text m', write_lso m sides = Ok text /\ read_lso F text = Ok m' /\ i_inspect m' = false.
Proof.
  intros HF O SA CF HT HI. destruct (lso_saved HF m sides O) as [text [m' [E1 [E2 [_ [_ [HB [HS _]]]]]]]]. exists text, m'. split; [assumption|]. split; [assumption|].
  pose proof (written_copies_last HF m sides O text E1) as CL. pose proof (loaded_apart m _ SA HS) as AP.
  destruct (C83_inspection F text m' CL E2 AP) as [T [TB TI]]. destruct (i_inspect m') eqn:EI; [|reflexivity]. exfalso.
  assert (HSI : forall h, In h (i_surfs m') -> exists s, In s (l_surfs m) /\ tris_uv h = surface_triangles s).
  { clear -HS. induction HS as [|i h l l' [s [nm [Es [_ Fs]]]] _ IH]; [intros h []|]. intros h' [<-|Hh]; [|now apply IH].
    apply lsurf_id in Es. destruct Es as [Hs _]. exists s. split; [assumption|]. eapply surface_from_tris; exact Fs. }
  destruct (proj1 TI eq_refl) as [[h [t [Hh [Ht HN]]]]|[r [h [Hr [Hh [B1 [B2 B3]]]]]]]; destruct (HSI h Hh) as [s [Hs ET]].
  - destruct (HI s Hs) as [b [Hb HR]].
    assert (exists r, In r (i_blocks m') /\ block_like b r) as [r [Hr BL]].
    { clear -HB Hb. induction HB as [|b0 r l l' [H _] _ IH]; [destruct Hb|]. destruct Hb as [->|Hb]; [exists r; split; [now left|assumption]|].
      destruct (IH Hb) as [r' [H1 H2]]. exists r'. split; [now right|assumption]. }
    rewrite Forall_forall in TB. specialize (TB r Hr). rewrite (block_like_facets _ _ BL) in TB. rewrite ET in Ht. specialize (CF b s Hb Hs t Ht).
    assert (0 < facets_at (block_facets b) t).
    { rewrite CF. destruct (existsb _ (k_bounds b)) eqn:X1; [lia|]. destruct (existsb _ (internals (k_id b))) eqn:X2; [lia|]. exfalso.
      assert (mem : forall l, existsb (Z.eqb (f_id s)) l = false -> ~ In (f_id s) l).
      { intros l X Hi. assert (existsb (Z.eqb (f_id s)) l = true); [|congruence]. apply existsb_exists. exists (f_id s). split; [assumption|apply Z.eqb_refl]. }
      apply mem in X1, X2. tauto. }
    unfold facets_at in H. destruct (filter (fun g => same_cornersb g t) (block_facets b)) as [|g l] eqn:EF; [cbn in H; lia|].
    assert (Hg : In g (filter (fun g => same_cornersb g t) (block_facets b))) by (rewrite EF; now left). apply filter_In in Hg. destruct Hg as [Hg HC].
    rewrite TB in Hg. apply in_flat_map in Hg. destruct Hg as [e [He Hg]]. apply filter_In in He. destruct He as [He _]. apply same_cornersb_ok in HC.
    exact (HN e g He Hg HC).
  - assert (exists b, In b (l_blocks m) /\ block_like b r) as [b [Hb BL]].
    { clear -HB Hr. induction HB as [|b0 r0 l l' [H _] _ IH]; [destruct Hr|]. destruct Hr as [->|Hr]; [exists b0; split; [now left|assumption]|].
      destruct (IH Hr) as [b' [H1 H2]]. exists b'. split; [now right|assumption]. }
    destruct (HT s Hs) as [NE AD].
    assert (EN : exists n, 0 <= n <= 2 /\ forall t, In t (tris_uv h) -> facets_at (facets_uv r) t = n).
    { rewrite ET, (block_like_facets _ _ BL). eexists. split; [|exact (CF b s Hb Hs)]. destruct (existsb _ _); [lia|]. destruct (existsb _ _); lia. }
    destruct EN as [n [Rn Hn]]. unfold count_on in *. rewrite (count_const _ _ n) in B1, B2, B3 by (rewrite ?ET in *; assumption).
    assert (EL : lenz (tris_uv h) = lenz (h_tris h)) by apply lenz_map. rewrite EL in *.
    assert (0 < lenz (h_tris h)) by (pose proof (lenz_nonneg (h_tris h)); nia). rewrite Z.div_mul in B2, B3 by lia. assert (n <> 0) by (intros ->; lia). lia.
Qed.
Print Assumptions C83_saved_model_clean.
Example C83_example : num_ok ExNum /\ lso_ok ex_lso ex_lsides /\ saved_apart ex_lso /\ conforming ex_lso ex_internals /\
  (forall s, In s (l_surfs ex_lso) -> f_tris s <> [] /\ all_different (surface_triangles s)) /\
  (forall s, In s (l_surfs ex_lso) -> exists b, In b (l_blocks ex_lso) /\ (In (f_id s) (k_bounds b) \/ In (f_id s) (ex_internals (k_id b)))).
Proof.
  destruct C80_example as [H1 [H2 [H3 [H4 [H5 _]]]]]. repeat (split; [assumption|]).
  intros s Hs. cbn [ex_lso ex_named l_surfs ex_lsurfs In] in Hs.
  destruct Hs as [<-|[<-|[<-|[<-|[]]]]]; [exists (ex_west (lit "west"))|exists (ex_west (lit "west"))|exists (ex_east (lit "east"))|exists (ex_west (lit "west"))]; cbn; tauto.
Qed.
