(** * Block names of several words in .lso files (C149).
    The writer puts the whole name of a block on the lines # CTETRA and MODEL_REGION (lso_output.cpp 104-122, 182-205), the reader
    takes the word after the keyword (lso_input.cpp 190-212, 341-354). *)
From Coq Require Import ZArith List Lia Bool Ascii String Permutation.
From Verif Require Import Base Text TextFacts GocadModel MeshModel TsModel Spec GocadFacts TsFacts LsoModel LsoFacts LsoRead LsoRound LsoFile LsoWhole LsoTrip LsoCount LsoRel  PropsLso.
Import ListNotations.
Local Open Scope string_scope.
Local Open Scope list_scope.
Local Open Scope Z_scope.

(** ** Specification *)
Definition blank (c : ascii) : Prop := c = " "%char \/ c = ascii_of_nat 9.
(** [w] is the first word of [name]. *)
Definition first_word (name w : bytes) : Prop :=
  exists a c, name = a ++ w ++ c /\ Forall blank a /\ w <> [] /\ Forall (fun x => ~ blank x) w /\ (c = [] \/ exists x r, c = x :: r /\ blank x).
(** The models that can be saved: as [lso_ok], but the names of the blocks may have several words and need not be distinct. *)
Record lso_shape {F} (m : LModel F) (sides : Z -> Z -> option bool) : Prop := {
  ls_consistent : consistent m;
  ls_colocated : colocated m;
  ls_rows : Forall (fun l => l <> []) (l_uv m);
  ls_fits : lenz (l_uv m) + nb_others (l_uv m) < two32;
  ls_some : l_blocks m <> [];
  ls_blocks : Forall good_block (l_blocks m);
  ls_names : Forall (fun b => plain (k_name b) /\ exists w, first_word (k_name b) w) (l_blocks m);
  ls_surfs : Forall (good_lsurf (lenz (l_uv m))) (l_surfs m);
  ls_items : Forall (fun c => Forall (fun i => In i (map f_id (l_surfs m))) (g_items c)) (collections m);
  ls_coll_names : Forall (fun c => plain (g_name c)) (collections m);
  ls_sides : Forall (fun b => exists s r side, k_bounds b = s :: r /\ sides (k_id b) s = Some side
                      /\ In s (flat_map g_items (collections m))) (l_blocks m);
  ls_title : forall t, l_title m = Some t -> is_line t
}.
(** The same model but for what follows the first word of the names of its blocks. *)
Definition same_block {F} (b b' : LBlock F) : Prop :=
  k_id b = k_id b' /\ k_points b = k_points b' /\ k_tets b = k_tets b' /\ k_uv b = k_uv b' /\ k_bounds b = k_bounds b' /\
  exists w, first_word (k_name b) w /\ first_word (k_name b') w.
Definition same_model {F} (m m' : LModel F) : Prop :=
  l_title m = l_title m' /\ l_uv m = l_uv m' /\ l_surfs m = l_surfs m' /\ l_horizons m = l_horizons m' /\
  l_faults m = l_faults m' /\ l_mbounds m = l_mbounds m' /\ Forall2 same_block (l_blocks m) (l_blocks m').

(** ** First words *)
Definition word_of (name : bytes) : bytes := hd [] (words name).
Lemma blank_sep c : blank c <-> is_sep c = true.
Proof.
  unfold blank, is_sep. rewrite orb_true_iff, !Ascii.eqb_eq. reflexivity.
Qed.
Lemma first_word_words name w : first_word name w -> exists ws, words name = w :: ws.
Proof.
  intros (a & c & -> & Ha & Hw & Hn & Hc).
  assert (E : words (a ++ w ++ c) = words (w ++ c)).
  { clear -Ha. induction Ha as [|x a Hx Ha IH]; [reflexivity|]. cbn [app]. apply blank_sep in Hx. rewrite words_sep by exact Hx. exact IH. }
  rewrite E. unfold words. rewrite split_run_cur by (eapply Forall_impl; [|exact Hn]; intros x Hx; destruct (is_sep x) eqn:S0; [exfalso; apply Hx; now apply blank_sep|reflexivity]).
  cbn [app]. destruct Hc as [->|(x & r & -> & Hx)].
  - cbn [split_run]. destruct w; [congruence|]. exists []. reflexivity.
  - apply blank_sep in Hx. cbn [split_run]. rewrite Hx. destruct w; [congruence|]. cbn [flush app]. eauto.
Qed.
Lemma first_word_of name w : first_word name w -> word_of name = w.
Proof. intros H. destruct (first_word_words _ _ H) as [ws E]. unfold word_of. now rewrite E. Qed.
Lemma first_word_unique name w w' : first_word name w -> first_word name w' -> w = w'.
Proof. intros H H'. now rewrite <- (first_word_of _ _ H), <- (first_word_of _ _ H'). Qed.
Lemma first_word_token name w : plain name -> first_word name w -> token w.
Proof.
  intros P H. destruct (first_word_words _ _ H) as [ws E]. pose proof (words_tokens name P) as T. rewrite E in T. now inversion_clear T.
Qed.
Definition named (n : bytes) : Prop := plain n /\ exists w, first_word n w.
Lemma named_words n : named n -> exists ws, words n = word_of n :: ws.
Proof. intros [P [w H]]. rewrite (first_word_of _ _ H). now apply first_word_words. Qed.
Lemma token_first_word w : token w -> first_word w w.
Proof.
  intros [T1 T2]. exists [], []. rewrite app_nil_r. split; [reflexivity|]. split; [constructor|]. split; [exact T1|]. split; [|now left].
  eapply Forall_impl; [|exact T2]. intros x Hx B. apply blank_sep, sep_space in B. cbn beta in Hx. congruence.
Qed.

(** ** Reading the lines *)
Section ReadNames.
Context {F : Num}.
Notation np := (@empty_prop (num F)).
Lemma ctetra_words name : named name -> exists ws, string_split (ctetra_line name) = lit "#" :: lit "CTETRA" :: word_of name :: ws.
Proof.
  intros H. destruct (named_words _ H) as [ws E]. destruct H as [P _].
  exists (ws ++ map lit ["none"; "none"; "none"; "none"]).
  transitivity (string_split (lit "#" ++ spaced (lit "CTETRA" :: name :: map lit ["none"; "none"; "none"; "none"]))).
  - reflexivity.
  - rewrite split_spaced; [|tok|].
    + cbn [flat_map map]. rewrite E. reflexivity.
    + repeat (apply Forall_cons; [first [exact P|apply plain_token; tok]|]). constructor.
Qed.
Lemma region_words n x : named n -> token x -> exists ws, string_split (region_text (n, x)) = lit "MODEL_REGION" :: word_of n :: ws.
Proof.
  intros H T. destruct (named_words _ H) as [ws E]. destruct H as [P _]. exists (ws ++ [x]).
  transitivity (string_split (lit "MODEL_REGION" ++ spaced [n; x])).
  - f_equal. unfold region_text. cbn [fst snd]. rewrite !spaced_cons. cbn [spaced map List.concat app]. now rewrite app_nil_r.
  - rewrite split_spaced; [|tok|repeat (apply Forall_cons; [first [exact P|now apply plain_token]|]); constructor].
    cbn [flat_map]. rewrite E, (words_tok x T). reflexivity.
Qed.
Lemma lso_tetra_named n st t name : n < two32 -> quad_in n t -> named name ->
  lso_tetra F np n st (num_line "TETRA" (quad_list t)) (ctetra_line name)
  = Ok (mkSolidT (st_tets st ++ [(t, word_of name)]) (st_vals st)).
Proof.
  intros Hn Ht Hk. destruct t as [[[a b] c] d]. unfold quad_in in Ht. cbn [quad_list] in *.
  unfold lso_tetra. rewrite num_line_tokens; [|tok|eapply Forall_impl; [|exact Ht]; cbn beta; lia].
  inversion_clear Ht as [|? ? Ha Ht']. inversion_clear Ht' as [|? ? Hb Ht]. inversion_clear Ht as [|? ? Hc Ht'].
  inversion_clear Ht' as [|? ? Hd _].
  rewrite (tok_index1 _ _ 0 a) by (reflexivity || lia). cbn [bind].
  rewrite (tok_index1 _ _ 1 b) by (reflexivity || lia). cbn [bind].
  rewrite (tok_index1 _ _ 2 c) by (reflexivity || lia). cbn [bind].
  rewrite (tok_index1 _ _ 3 d) by (reflexivity || lia). cbn [bind].
  destruct (Z.ltb_spec a n), (Z.ltb_spec b n), (Z.ltb_spec c n), (Z.ltb_spec d n); try lia. cbn [andb].
  cbn [p_names p_esizes empty_prop read_properties bind]. destruct (ctetra_words name Hk) as [ws ->]. reflexivity.
Qed.
Definition cut_entry (e : quad * bytes) : quad * bytes := (fst e, word_of (snd e)).
Lemma lso_tetras_named n es : forall st e b stop r, n < two32 -> starts_with stop "TETRA" = false ->
  Forall (fun e => quad_in n (fst e) /\ named (snd e)) (e :: es) ->
  lso_tetras F np n st (num_line "TETRA" (quad_list (fst e))) b (ctetra_line (snd e) :: flat_map tet_lines es ++ stop :: r)
  = Ok (mkSolidT (st_tets st ++ map cut_entry (e :: es)) (st_vals st), stop, mkStream r b).
Proof.
  induction es as [|e' es IH]; intros st [t name] b stop r Hn Hs H; inversion_clear H as [|? ? [Ht Hk] H'].
  - cbn [flat_map app lso_tetras fst snd map] in *. rewrite lso_tetra_named by assumption. cbn [bind]. rewrite Hs. reflexivity.
  - cbn [flat_map tet_lines app lso_tetras fst snd] in *. rewrite lso_tetra_named by assumption. cbn [bind].
    replace (starts_with (num_line "TETRA" (quad_list (fst e'))) "TETRA") with true by (symmetry; apply starts_with_app). cbv iota.
    rewrite IH by assumption. cbn [st_tets st_vals]. rewrite <- app_assoc. reflexivity.
Qed.
Lemma lso_blocks_named sv st ss regs : forall fuel line ls b stop r,
  (List.length regs < fuel)%nat ->
  line :: ls = map region_text regs ++ stop :: r ->
  Forall (fun e => named (fst e) /\ token (snd e)) regs ->
  starts_with stop "MODEL_REGION" = false ->
  lso_blocks F np np fuel sv st ss line (mkStream ls b) = build_blocks sv st ss (map (fun e => word_of (fst e)) regs).
Proof.
  induction regs as [|[n x] regs IH]; intros fuel line ls b stop r Hf E HT Hs; (destruct fuel as [|fuel]; [lia|]).
  - cbn [map app] in E. injection E as -> ->. cbn [lso_blocks map build_blocks]. now rewrite Hs.
  - inversion_clear HT as [|? ? [HT0 HT1] HT2]. cbn [map app fst snd] in *.
    assert (line = region_text (n, x)) as -> by congruence.
    assert (ls = map region_text regs ++ stop :: r) as -> by congruence. clear E.
    cbn [lso_blocks build_blocks]. change (starts_with (region_text (n, x)) "MODEL_REGION") with true. cbv iota.
    destruct (region_words n x HT0 HT1) as [ws ->].
    rewrite idx_S, idx_0. cbn [bind]. apply bind_ext. intros [bl bad] _.
    assert (exists l0 r0, map region_text regs ++ stop :: r = l0 :: r0) as [l0 [r0 E0]] by (destruct regs; cbn [map app]; eauto).
    rewrite E0. unfold getline. cbn [pending nl]. cbv iota beta. cbn [List.length] in Hf.
    rewrite (IH fuel l0 r0 b stop r); [reflexivity|lia|now symmetry|assumption|assumption].
Qed.
(** What is loaded, from the vertices, the tetrahedra with the words of their blocks, the surfaces and the words of the blocks. *)
Definition loaded_of (title : option bytes) (ps : list (point F)) (atoms : list Z) (tets : list (quad * bytes))
  (secs : list (bytes * list (Z * list tri))) (ws : list bytes) : res (LsoIn F) :=
  do sv <- foldM (lso_vertex F default_crs np) (lso_vrtx_lines 0 ps ++ shared_lines (lenz ps + 1) atoms) (mkSolidV [] [] [] []);
  do '(ss, hs) <- foldM (load_sect sv tets) secs (mkSurfSt [] [] false, []);
  do '(rs, bad) <- build_blocks sv (mkSolidT tets []) ss ws;
  Ok (mkLsoIn (option_map normalise title) (lenz (sv_map sv)) (ss_surfs ss) hs rs (ss_inspect ss || bad)).
End ReadNames.

(** ** The file written *)
Section Written.
Context {F : Num} (HF : num_ok F) (m : LModel F) (sides : Z -> Z -> option bool) (O : lso_shape m sides).
Let N := lenz (l_uv m).
Notation np := (@empty_prop (num F)).
Lemma shape_items : Forall (fun c => Forall (good_item m) (g_items c)) (collections m).
Proof.
  eapply Forall_impl; [|exact (ls_items m sides O)]. intros c Hc. cbn beta in Hc. eapply Forall_impl; [|exact Hc]. intros i Hi. cbn beta in Hi.
  destruct (lsurf_found m i Hi) as [s [E [Hs _]]]. exists s. split; [assumption|]. pose proof (ls_surfs m sides O) as HS.
  rewrite Forall_forall in HS. now apply HS.
Qed.
Lemma shape_small : N < two32.
Proof. pose proof (ls_fits m sides O). pose proof (nb_others_nonneg _ (ls_rows m sides O)). unfold N. lia. Qed.
Lemma shape_region b : In b (l_blocks m) ->
  region_line_of sides (nums 1 (all_ids m)) b = Ok (region_text (region_of m sides b)) /\ named (fst (region_of m sides b)) /\ token (snd (region_of m sides b)).
Proof.
  intros Hb. pose proof (ls_sides m sides O) as HS. rewrite Forall_forall in HS. destruct (HS b Hb) as [s [r [side [E1 [E2 Hs]]]]].
  pose proof (ls_names m sides O) as HK. rewrite Forall_forall in HK.
  unfold region_line_of, region_of. rewrite E1. unfold front. cbn [bind]. rewrite E2. cbn [bind].
  destruct (find_num 1 (all_ids m) s) as [k [Ek Rk]]; [lia|unfold all_ids; apply fresh_in; split; [assumption|intros []]|].
  rewrite Ek. cbn [bind fst snd]. split; [unfold region_text; cbn [fst snd]; destruct side; reflexivity|]. split; [now apply HK|].
  destruct (show_token k Rk) as [T1 T2].
  destruct side; (split; [discriminate|]); constructor; auto.
Qed.
Lemma shape_surfaces : (do '(sl1, ex1, n1) <- write_surfaces m (l_horizons m) [] 1;
  do '(sl2, ex2, n2) <- write_surfaces m (l_faults m) ex1 n1;
  do '(sl3, ex3, n3) <- write_surfaces m (l_mbounds m) ex2 n2; Ok (sl1 ++ sl2 ++ sl3, ex3, n3))
  = Ok (flat_map sect_lines (secs m), nums 1 (all_ids m), after 1 (all_ids m)).
Proof.
  pose proof (write_surfaces_ok m shape_small (collections m) [] 1 shape_items) as W. cbn [map app] in W. fold (all_ids m) in W. fold (secs m) in W.
  rewrite <- W. unfold collections. rewrite <- write_surfaces_app. apply bind_ext. intros [[l1 e1] n1] _.
  rewrite <- write_surfaces_app, !bind_assoc. apply bind_ext. intros [[l2 e2] n2] _. rewrite !bind_assoc. apply bind_ext. intros [[l3 e3] n3] _.
  reflexivity.
Qed.
Definition file_lines (ps : list (point F)) (rws : list row) (atoms : list Z) : list bytes :=
  [lit "GOCAD LightTSolid 1"] ++ write_header (l_title m) ++ write_CRS default_crs ++
      (lso_vrtx_lines 0 ps ++ shared_lines (N + 1) atoms) ++ flat_map tet_lines (entries m rws) ++ [lit "MODEL"] ++
      flat_map sect_lines (secs m) ++ map region_text (map (region_of m sides) (l_blocks m)) ++ [lit "END"].
Lemma shape_lines : exists ps rws atoms, numbered m 0 N (l_uv m) ps rws atoms /\
  lso_lines m sides = Ok (file_lines ps rws atoms) /\ Forall (fun e => quad_in (N + nb_others (l_uv m)) (fst e)) (entries m rws).
Proof.
  pose proof (ls_consistent m sides O) as C. pose proof (ls_rows m sides O) as HN. pose proof (ls_fits m sides O) as fits.
  destruct (uvs_total m C HN fits) as [ls [rws [atoms [ps [E [NUM ->]]]]]]. exists ps, rws, atoms. split; [exact NUM|].
  destruct (write_tetrahedra_ok m C HN ps rws atoms NUM (ls_blocks m sides O)) as [WT HT]. split; [|exact HT].
  unfold lso_lines, write_vertices. cbn zeta. rewrite E. cbn [bind]. fold N. rewrite WT. cbn [bind]. pose proof shape_surfaces as WS.
  apply bind_ok in WS. destruct WS as [[[l1 e1] n1] [-> WS]]. cbn [bind]. apply bind_ok in WS. destruct WS as [[[l2 e2] n2] [-> WS]]. cbn [bind].
  apply bind_ok in WS. destruct WS as [[[l3 e3] n3] [-> WS]]. cbn [bind].
  assert (l1 ++ l2 ++ l3 = flat_map sect_lines (secs m)) as E1 by congruence. assert (e3 = nums 1 (all_ids m)) as -> by congruence.
  rewrite (mapM_ok_map _ (fun b => region_text (region_of m sides b))) by (intros b Hb; now apply shape_region). cbn [bind]. unfold file_lines.
  assert (add32 N 1 = N + 1 \/ atoms = []) as [-> | ->].
  { pose proof (nb_others_nonneg _ HN). pose proof (lenz_nonneg (l_uv m)). destruct (Z.eq_dec (N + 1) two32) as [X|X].
    - right. destruct (numbered_lens _ _ _ _ _ _ _ NUM) as [_ [_ L]]. unfold N in *.
      destruct atoms as [|a at']; [reflexivity|]. rewrite lenz_cons in L. pose proof (lenz_nonneg at'). lia.
    - left. unfold N in *. apply add32_small; lia. }
  - rewrite map_map. rewrite <- !app_assoc. do 6 f_equal. rewrite <- E1, <- !app_assoc. reflexivity.
  - rewrite map_map. cbn [shared_lines]. rewrite <- !app_assoc. do 6 f_equal. rewrite <- E1, <- !app_assoc. reflexivity.
Qed.
Lemma entries_named rws : Forall (fun e => named (snd e)) (entries m rws).
Proof.
  apply Forall_flat_map'. intros b Hb. apply Forall_map, Forall_forall. intros t _. cbn [snd]. pose proof (ls_names m sides O) as H. rewrite Forall_forall in H. now apply H.
Qed.
Lemma shape_entries_some rws : entries m rws <> [].
Proof.
  unfold entries. pose proof (ls_some m sides O) as H1. pose proof (ls_blocks m sides O) as H2. destruct (l_blocks m) as [|b bs]; [congruence|].
  inversion_clear H2 as [|? ? [H3 _] _]. cbn [flat_map]. destruct (k_tets b) as [|t ts]; [congruence|]. cbn [map app]. discriminate.
Qed.
Lemma named_tets_lines n es : Forall (fun e => quad_in n (fst e)) es -> Forall (fun e => named (snd e)) es -> Forall is_line (flat_map tet_lines es).
Proof.
  intros H1 H2. induction es as [|e es IH]; [constructor|]. inversion_clear H1 as [|? ? H3 H4]. inversion_clear H2 as [|? ? [H5 _] H6]. cbn [flat_map tet_lines app]. constructor; [|constructor; [|now apply IH]].
  - apply (num_line_line m); [isl|]. eapply Forall_impl; [|exact H3]. cbn beta. lia.
  - unfold ctetra_line. apply is_line_app; [isl|]. apply is_line_app; [now apply plain_line|isl].
Qed.
Lemma shape_secs_lines : Forall is_line (flat_map sect_lines (secs m)).
Proof.
  apply Forall_flat_map'. intros e He. unfold sect_lines. constructor.
  - apply is_line_app; [isl|]. apply plain_line. pose proof (secs_plain m (collections m) [] 1 (ls_coll_names m sides O)) as H.
    rewrite Forall_forall in H. now apply H.
  - apply Forall_flat_map'. intros f Hf. apply (face_is_lines m).
    + pose proof (secs_nonneg m (collections m) [] 1 ltac:(lia)) as H. rewrite Forall_forall in H. specialize (H e He). rewrite Forall_forall in H. now apply H.
    + pose proof (secs_small m shape_small (collections m) [] 1 shape_items) as H. rewrite Forall_forall in H. specialize (H e He). rewrite Forall_forall in H. now apply H.
Qed.
Lemma file_are_lines ps rws atoms : numbered m 0 N (l_uv m) ps rws atoms ->
  Forall (fun e => quad_in (N + nb_others (l_uv m)) (fst e)) (entries m rws) -> Forall is_line (file_lines ps rws atoms).
Proof.
  intros NUM HT. pose proof (numbered_atoms _ _ _ _ _ _ _ NUM) as HA. cbn [Z.add] in HA. pose proof (lenz_nonneg (l_uv m)) as NP. unfold file_lines.
  apply Forall_app. split; [constructor; [isl|constructor]|]. apply Forall_app. split; [apply write_header_lines; exact (ls_title m sides O)|].
    apply Forall_app. split; [repeat (apply Forall_cons; [isl|]); constructor|]. apply Forall_app. split.
    { apply Forall_app. split; [apply (vrtx_is_line HF m); lia|]. apply (shared_is_line m); [unfold N; lia|]. eapply Forall_impl; [|exact HA]. cbn beta. lia. }
    apply Forall_app. split; [eapply named_tets_lines; [exact HT|apply entries_named]|]. apply Forall_app. split; [constructor; [isl|constructor]|].
    apply Forall_app. split; [apply shape_secs_lines|]. apply Forall_app. split; [|constructor; [isl|constructor]].
    rewrite map_map. apply Forall_map, Forall_forall. intros b Hb. destruct (shape_region b Hb) as [_ [[T1 _] T2]]. unfold region_text.
    apply is_line_app; [isl|]. apply is_line_app; [now apply plain_line|]. apply is_line_cons; [discriminate|now apply token_line].
Qed.
Lemma shape_read : exists ps rws atoms text, numbered m 0 N (l_uv m) ps rws atoms /\ write_lso m sides = Ok text /\
  read_lso F text = loaded_of (l_title m) ps atoms (map cut_entry (entries m rws)) (secs m) (map (fun b => word_of (k_name b)) (l_blocks m)).
Proof.
  pose proof (ls_consistent m sides O) as C. pose proof (ls_rows m sides O) as HN. pose proof (ls_fits m sides O) as fits.
  pose proof (nb_others_nonneg _ HN) as NN. pose proof shape_small as NS. pose proof (lenz_nonneg (l_uv m)) as NP.
  destruct shape_lines as [ps [rws [atoms [NUM [EL HT]]]]].
  destruct (numbered_lens _ _ _ _ _ _ _ NUM) as [L1 [L2 L3]].
  pose proof (numbered_atoms _ _ _ _ _ _ _ NUM) as HA. cbn [Z.add] in HA.
  assert (LP : lenz ps = N) by (unfold N, lenz; now rewrite L1).
  pose proof (file_are_lines ps rws atoms NUM HT) as HL.
  destruct (solid_written HF ps atoms (N + 1)) as [new [mp [HNEW [HMP EV]]]]; [lia|lia|rewrite LP; exact HA|].
  set (sv := mkSolidV (map (rp F) ps ++ new) (rangez 0 (List.length ps) ++ map (fun a => a - 1) atoms) mp []) in *.
  exists ps, rws, atoms, (unlines (file_lines ps rws atoms)). split; [exact NUM|].
  split; [unfold write_lso; rewrite EL; reflexivity|]. unfold loaded_of. rewrite LP, EV. cbn [bind]. clear EL.
  unfold read_lso. rewrite open_unlines by exact HL. unfold file_lines. cbn [app]. rewrite goto_if_next by reflexivity.
  rewrite read_header_written. cbn [bind]. rewrite read_CRS_default. cbn [bind].
  assert (exists p0 ps0, ps = p0 :: ps0) as [p0 [ps0 EPS]].
  { clear -LP NP C O NS. destruct ps as [|p0 ps0]; [|eauto]. exfalso. pose proof (ls_some m sides O) as G1. pose proof (ls_blocks m sides O) as G2. destruct (l_blocks m) as [|b bs] eqn:EBL; [congruence|].
    inversion_clear G2 as [|? ? [G3 G4] _]. destruct (k_tets b) as [|[[[x y] z] w] ts]; [congruence|]. inversion_clear G4 as [|? ? G5 _].
    cbn [quad_list] in G5. inversion_clear G5 as [|? ? G6 _]. pose proof (cu_len m C) as G7. pose proof (cu_inside m C) as G8. rewrite EBL in G7, G8.
    inversion_clear G7 as [|? ? G9 _]. inversion_clear G8 as [|? ? G10 _]. destruct (nthz_in_range (k_uv b) x) as [u Hu]; [unfold lenz in G6; lia|].
    rewrite Forall_forall in G10. specialize (G10 u (nthz_in _ _ _ Hu)). change (lenz []) with 0 in LP. unfold N in LP. lia. }
  assert (exists vl0 VL, lso_vrtx_lines 0 ps ++ shared_lines (N + 1) atoms = vl0 :: VL /\ Forall (fun x => contains x "VRTX" = true) VL
          /\ starts_with vl0 "PROPERTIES" = false /\ starts_with vl0 "TETRA_PROPERTIES" = false /\ starts_with vl0 "VRTX" = true) as [vl0 [VL [EVL [HVL [S1 [S2 S3]]]]]].
  { rewrite EPS. cbn [lso_vrtx_lines app]. eexists _, _. split; [reflexivity|]. split; [|repeat split; reflexivity].
    apply Forall_app. split; [apply vrtx_lines_contain|apply shared_lines_contain]. }
  rewrite EVL in *. cbn [app].
  unfold read_prop_header at 1, next_if. cbn [pending app]. rewrite S1. cbn [bind].
  unfold read_prop_header at 1, next_if. cbn [pending].
  change (lit "TETRA_" ++ lit "PROPERTIES") with (lit "TETRA_PROPERTIES"). rewrite S2. cbn [bind].
  unfold lso_body. change (map lit ["VRTX"; "PVRTX"]) with [lit "VRTX"; lit "PVRTX"].
  rewrite goto_keywords_first by (cbn [existsb]; rewrite S3; reflexivity). cbn [bind pending nl].
  destruct (entries m rws) as [|e0 es] eqn:EE; [exfalso; now apply (shape_entries_some rws)|].
  pose proof (entries_named rws) as HK. rewrite EE in HK.
  assert (HT' : Forall (fun e => quad_in (lenz (map (rp F) ps ++ new)) (fst e) /\ named (snd e)) (e0 :: es)).
  { assert (lenz (map (rp F) ps ++ new) = N + nb_others (l_uv m)) as ->.
    { rewrite lenz_app, lenz_map, LP. f_equal. rewrite <- L3. unfold lenz. f_equal. clear -HNEW. induction HNEW; [reflexivity|]. cbn [List.length]. congruence. }
    clear -HT HK. induction HT as [|e l He HT IH]; inversion_clear HK; constructor; auto. }
  cbn [flat_map tet_lines app].
  rewrite lso_vertices_fold; [|exact HVL|inversion_clear HT' as [|? ? [Q _] _]; apply (tetra_no_vrtx m); eapply Forall_impl; [|exact Q]; cbn beta; lia].
  cbn [p_names empty_prop]. change (map (fun _ : bytes => @nil (num F)) []) with (@nil (list (num F))). rewrite EV. cbn [bind].
  unfold skip_indicators at 1.
  replace (starts_with (num_line "TETRA" (quad_list (fst e0))) (lit "BEGIN_" ++ lit "VERTEX" ++ lit "_REGION_INDICATORS")) with false by reflexivity.
  cbn [bind pending nl]. cbn [sv_points sv].
  rewrite (lso_tetras_named (lenz (map (rp F) ps ++ new)) es (mkSolidT [] []) e0 true (lit "MODEL")); [| |reflexivity|exact HT'].
  2:{ rewrite lenz_app, lenz_map, LP. assert (lenz new = nb_others (l_uv m)) as ->; [|exact fits].
      rewrite <- L3. unfold lenz. f_equal. clear -HNEW. induction HNEW; [reflexivity|]. cbn [List.length]. congruence. }
  cbn [bind st_tets st_vals app]. unfold skip_indicators at 1.
  replace (starts_with (lit "MODEL") (lit "BEGIN_" ++ lit "TETRA" ++ lit "_REGION_INDICATORS")) with false by reflexivity.
  cbn [bind]. replace (starts_with (lit "MODEL") (lit "MODEL")) with true by reflexivity. cbn [bind].
  pose proof (ls_some m sides O) as HBL. destruct (l_blocks m) as [|b0 bs] eqn:EBL; [congruence|].
  assert (HREG : Forall (fun e => named (fst e) /\ token (snd e)) (map (region_of m sides) (b0 :: bs))).
  { apply Forall_map, Forall_forall. intros b Hb. rewrite <- EBL in Hb. destruct (shape_region b Hb) as [_ HR]. exact HR. }
  assert (exists l1 r1, flat_map sect_lines (secs m) ++ map region_text (map (region_of m sides) (b0 :: bs)) ++ [lit "END"] = l1 :: r1) as [l1 [r1 E1]].
  { destruct (secs m); cbn [flat_map sect_lines map app]; eauto. }
  rewrite E1. unfold getline. cbn [pending nl]. cbv iota beta.
  rewrite (lso_surfaces_written sv (map cut_entry (e0 :: es)) (secs m) _ (mkSurfSt [] [] false) [] l1 r1 true (region_text (region_of m sides b0)) (map region_text (map (region_of m sides) bs) ++ [lit "END"])).
  - rewrite !bind_assoc. apply bind_ext. intros [ss H] _. cbn [bind].
    rewrite (lso_blocks_named sv (mkSolidT (map cut_entry (e0 :: es)) []) ss (map (region_of m sides) (b0 :: bs)) _ (region_text (region_of m sides b0)) (map region_text (map (region_of m sides) bs) ++ [lit "END"]) true (lit "END") []).
    + rewrite map_map. reflexivity.
    + cbn [pending]. rewrite map_length, app_length, !map_length. cbn [List.length]. lia.
    + reflexivity.
    + exact HREG.
    + reflexivity.
  - cbn [pending]. apply (f_equal (@List.length _)) in E1. rewrite app_length in E1. cbn [List.length] in E1.
    assert (List.length (secs m) <= List.length (flat_map sect_lines (secs m)))%nat; [|lia].
    clear. induction (secs m) as [|f fs IH]; cbn [flat_map sect_lines List.length app]; [lia|]. rewrite app_length. lia.
  - rewrite <- E1. reflexivity.
  - apply secs_plain. exact (ls_coll_names m sides O).
  - pose proof (secs_small m NS (collections m) [] 1 shape_items) as G. eapply Forall_impl; [|exact G]. intros e He. cbn beta in He.
    eapply Forall_impl; [|exact He]. intros f Hf. cbn beta in Hf. eapply Forall_impl; [|exact Hf]. intros t Ht. cbn beta in Ht.
    unfold small_tri. eapply Forall_impl; [|exact Ht]. cbn beta. intros v Hv. fold N in Hv. unfold N in *. lia.
  - reflexivity.
  - reflexivity.
  - reflexivity.
Qed.
End Written.

(** ** Two models with the same first words *)
Section Same.
Context {F : Num} (m m' : LModel F) (SM : same_model m m').
Lemma same_from b' : In b' (l_blocks m') -> exists b, In b (l_blocks m) /\ same_block b b'.
Proof.
  destruct SM as (_ & _ & _ & _ & _ & _ & H). clear SM. induction H as [|x y l l' Hx H IH]; [intros []|].
  intros [<-|Hb]; [exists x; split; [now left|exact Hx]|]. destruct (IH Hb) as (b & H1 & H2). exists b. split; [now right|exact H2].
Qed.
Lemma same_to b : In b (l_blocks m) -> exists b', In b' (l_blocks m') /\ same_block b b'.
Proof.
  destruct SM as (_ & _ & _ & _ & _ & _ & H). clear SM. induction H as [|x y l l' Hx H IH]; [intros []|].
  intros [<-|Hb]; [exists y; split; [now left|exact Hx]|]. destruct (IH Hb) as (b' & H1 & H2). exists b'. split; [now right|exact H2].
Qed.
Lemma same_consistent : consistent m -> consistent m'.
Proof.
  intros [C1 C2 C3 C4 C5 C6]. destruct SM as (_ & EU & _ & _ & _ & _ & HB). split.
  - replace (map k_id (l_blocks m')) with (map k_id (l_blocks m)); [exact C1|]. clear -HB. induction HB as [|x y l l' (E & _) _ IH]; [reflexivity|]. cbn [map]. now rewrite E, IH.
  - apply Forall_forall. intros b' Hb. destruct (same_from b' Hb) as (b & Hi & (_ & E1 & _ & E2 & _)). rewrite Forall_forall in C2. rewrite <- E1, <- E2. now apply C2.
  - apply Forall_forall. intros b' Hb. destruct (same_from b' Hb) as (b & Hi & (_ & _ & _ & E2 & _)). rewrite Forall_forall in C3. rewrite <- E2, <- EU. now apply C3.
  - intros u mvs b' v Hu Hb. destruct (same_from b' Hb) as (b & Hi & (E0 & _ & _ & E2 & _)). rewrite <- EU in Hu. rewrite <- E0, <- E2. now apply C4.
  - intros mvs mv H1 H2. rewrite <- EU in H1. destruct (C5 mvs mv H1 H2) as (b & Hb & E). destruct (same_to b Hb) as (b' & Hb' & (E0 & _)). exists b'. split; [exact Hb'|congruence].
  - now rewrite <- EU.
Qed.
Lemma same_at_uv u p : at_uv m' u p -> at_uv m u p.
Proof.
  intros (b' & v & Hb & H1 & H2). destruct (same_from b' Hb) as (b & Hi & (_ & E1 & _ & E2 & _)). exists b, v. rewrite E1, E2. auto.
Qed.
Lemma same_shape sides : lso_shape m sides -> Forall (fun b => plain (k_name b)) (l_blocks m') -> lso_shape m' sides.
Proof.
  intros [L1 L2 L3 L4 L5 L6 L7 L8 L9 L10 L11 L12] P. pose proof SM as (E1 & E2 & E3 & E4 & E5 & E6 & HB).
  assert (EC : collections m' = collections m) by (unfold collections; now rewrite E4, E5, E6).
  split; rewrite <- ?E1, <- ?E2, <- ?E3, ?EC; try assumption.
  - now apply same_consistent.
  - intros u p q H1 H2. exact (L2 u p q (same_at_uv _ _ H1) (same_at_uv _ _ H2)).
  - intros E. rewrite E in HB. inversion HB as [X|]. now apply L5.
  - apply Forall_forall. intros b' Hb. destruct (same_from b' Hb) as (b & Hi & (_ & X1 & X2 & _)). rewrite Forall_forall in L6. destruct (L6 b Hi) as [G1 G2]. split; rewrite <- X2; [exact G1|].
    now rewrite <- X1.
  - apply Forall_forall. intros b' Hb. destruct (same_from b' Hb) as (b & Hi & (_ & _ & _ & _ & _ & w & _ & Hw)). rewrite Forall_forall in P. split; [now apply P|now exists w].
  - apply Forall_forall. intros b' Hb. destruct (same_from b' Hb) as (b & Hi & (X0 & _ & _ & _ & X3 & _)). rewrite Forall_forall in L11. rewrite <- X3, <- X0. now apply L11.
Qed.
Lemma same_block_of id b b' : block_of m id = Ok b -> block_of m' id = Ok b' -> k_points b = k_points b'.
Proof.
  destruct SM as (_ & _ & _ & _ & _ & _ & H). clear SM. unfold block_of. induction H as [|x y l l' Hx H IH]; [discriminate|].
  cbn [find]. destruct Hx as (E0 & E1 & _). rewrite <- E0. destruct (k_id x =? id); [|exact IH]. intros X Y. congruence.
Qed.
Lemma split_uv_unique mvs mv o mv' o' : split_uv mvs mv o -> split_uv mvs mv' o' -> mv = mv' /\ o = o'.
Proof. intros (i & A1 & A2 & ->) (j & B1 & B2 & ->). assert (i = j) as -> by congruence. split; [congruence|reflexivity]. Qed.
Lemma same_numbered v nb uvs ps rws atoms : numbered m v nb uvs ps rws atoms -> forall ps' rws' atoms', numbered m' v nb uvs ps' rws' atoms' ->
  ps = ps' /\ rws = rws' /\ atoms = atoms'.
Proof.
  induction 1 as [|v nb mvs rr mv0 others b p ps rws atoms HS Hb Hp N IH]; intros ps' rws' atoms' X; inversion X as [|? ? ? ? mv1 o1 b1 p1 ps1 rws1 atoms1 HS1 Hb1 Hp1 N1]; subst; [auto|].
  destruct (split_uv_unique _ _ _ _ _ HS HS1) as [<- <-]. pose proof (same_block_of _ _ _ Hb Hb1) as EP.
  destruct (IH _ _ _ N1) as (<- & <- & <-). rewrite EP in Hp. assert (p = p1) as -> by congruence. auto.
Qed.
End Same.
(** What the entries become depends on the words only. *)
Lemma same_entries {F} (m m' : LModel F) rws : same_model m m' -> map cut_entry (entries m rws) = map cut_entry (entries m' rws).
Proof.
  intros (_ & _ & _ & _ & _ & _ & H). unfold entries. induction H as [|x y l l' (E0 & E1 & E2 & E3 & E4 & w & W1 & W2) H IH]; [reflexivity|].
  cbn [flat_map]. rewrite !map_app, IH. f_equal. rewrite <- E2, !map_map. apply map_ext. intros [[[a b] c] d]. unfold cut_entry. cbn [fst snd].
  rewrite (first_word_of _ _ W1), (first_word_of _ _ W2). unfold qn, cn, corner_number. now rewrite E0, E3.
Qed.
Lemma same_words {F} (m m' : LModel F) : same_model m m' -> map (fun b => word_of (k_name b)) (l_blocks m) = map (fun b => word_of (k_name b)) (l_blocks m').
Proof.
  intros (_ & _ & _ & _ & _ & _ & H). induction H as [|x y l l' (E0 & E1 & E2 & E3 & E4 & w & W1 & W2) H IH]; [reflexivity|].
  cbn [map]. now rewrite IH, (first_word_of _ _ W1), (first_word_of _ _ W2).
Qed.
Lemma same_secs {F} (m m' : LModel F) : same_model m m' -> secs m = secs m'.
Proof.
  destruct m as [t u b s h f d], m' as [t' u' b' s' h' f' d']. intros (E1 & E2 & E3 & E4 & E5 & E6 & _). cbn in E1, E2, E3, E4, E5, E6. subst.
  unfold secs, collections. cbn [l_horizons l_faults l_mbounds]. generalize (h' ++ f' ++ d') (@nil Z) 1. intros cs.
  induction cs as [|c cs IH]; intros seen n; [reflexivity|]. cbn [secs_of]. cbv zeta. destruct (fresh seen (g_items c)); [apply IH|]. rewrite IH. reflexivity.
Qed.

(** ** C149 *)
(** Two models that differ only by what follows the first words of the names of their blocks are both saved, and loaded as the same model. *)
Theorem C149_rest_of_names_lost (F : Num) (m m' : LModel F) sides : num_ok F -> lso_shape m sides ->
  Forall (fun b => plain (k_name b)) (l_blocks m') -> same_model m m' ->
  exists text text', write_lso m sides = Ok text /\ write_lso m' sides = Ok text' /\ read_lso F text = read_lso F text'.
Proof.
  intros HF O P SM. pose proof (same_shape m m' SM sides O P) as O'.
  destruct (shape_read HF m sides O) as (ps & rws & atoms & text & NUM & EW & ER).
  destruct (shape_read HF m' sides O') as (ps' & rws' & atoms' & text' & NUM' & EW' & ER'). exists text, text'. split; [exact EW|]. split; [exact EW'|].
  pose proof SM as (E1 & E2 & _). rewrite <- E2 in NUM'. destruct (same_numbered m m' SM _ _ _ _ _ _ NUM _ _ _ NUM') as (<- & <- & <-).
  rewrite ER, ER', <- E1, (same_entries m m' rws SM), (same_secs m m' SM), (same_words m m' SM). reflexivity.
Qed.
Print Assumptions C149_rest_of_names_lost.

(** The same model, its blocks named with the words [ws]. *)
Definition with_name {F} (b : LBlock F) (w : bytes) : LBlock F := mkLBlock (k_id b) w (k_points b) (k_tets b) (k_uv b) (k_bounds b).
Definition renamed {F} (m : LModel F) (ws : list bytes) : LModel F :=
  mkLModel (l_title m) (l_uv m) (map (fun bw => with_name (fst bw) (snd bw)) (combine (l_blocks m) ws)) (l_surfs m) (l_horizons m) (l_faults m) (l_mbounds m).
Lemma renamed_ok (F : Num) (m : LModel F) sides ws : num_ok F -> lso_shape m sides ->
  Forall2 (fun b w => first_word (k_name b) w) (l_blocks m) ws -> NoDup ws ->
  lso_ok (renamed m ws) sides /\
  exists text text', write_lso m sides = Ok text /\ write_lso (renamed m ws) sides = Ok text' /\ read_lso F text = read_lso F text'.
Proof.
  intros HF O HW ND. set (m1 := renamed m ws).
  assert (NM : map k_name (l_blocks m1) = ws).
  { cbn [m1 renamed l_blocks]. rewrite map_map. cbn [with_name k_name]. clear -HW. induction HW as [|b w l ws _ _ IH]; [reflexivity|]. cbn [combine map snd]. now rewrite IH. }
  assert (TK : Forall token ws).
  { pose proof (ls_names m sides O) as HN. clear -HW HN. induction HW as [|b w l ws H _ IH]; [constructor|]. inversion_clear HN as [|? ? [P _] HN']. constructor; [now apply (first_word_token (k_name b))|auto]. }
  assert (TN : Forall (fun b => token (k_name b)) (l_blocks m1)) by (apply Forall_map with (P := token); rewrite NM; exact TK).
  assert (SM : same_model m m1).
  { repeat (split; [reflexivity|]). cbn [m1 renamed l_blocks]. clear -HW TK. induction HW as [|b w l ws H _ IH]; [constructor|]. inversion_clear TK as [|? ? T TK']. cbn [combine map].
    constructor; [|auto]. repeat (split; [reflexivity|]). exists w. split; [exact H|]. cbn [with_name k_name]. now apply token_first_word. }
  assert (P1 : Forall (fun b => plain (k_name b)) (l_blocks m1)) by (eapply Forall_impl; [|exact TN]; intros; now apply plain_token).
  split; [|exact (C149_rest_of_names_lost F m m1 sides HF O P1 SM)].
  pose proof (same_shape m m1 SM sides O P1) as [L1 L2 L3 L4 L5 L6 _ L8 L9 L10 L11 L12]. split; try assumption. rewrite NM. exact ND.
Qed.
Lemma Forall2_of_map {A B C} (f : A -> B) (R : B -> C -> Prop) l : forall r, Forall2 R (map f l) r -> Forall2 (fun x => R (f x)) l r.
Proof. induction l as [|x l IH]; intros r H; inversion_clear H; constructor; auto. Qed.
(** When the first words are distinct, each block is loaded under the first word of its name, with its own tetrahedra. *)
Theorem C149_distinct_first_words (F : Num) (m : LModel F) sides ws : num_ok F -> lso_shape m sides ->
  Forall2 (fun b w => first_word (k_name b) w) (l_blocks m) ws -> NoDup ws ->
  exists text m', write_lso m sides = Ok text /\ read_lso F text = Ok m' /\
    Forall2 (fun bw r => block_like (with_name (fst bw) (snd bw)) r) (combine (l_blocks m) ws) (i_blocks m').
Proof.
  intros HF O HW ND. destruct (renamed_ok F m sides ws HF O HW ND) as (OK1 & text & text1 & W & W1 & E).
  destruct (C46_block_tetrahedra F _ sides HF OK1) as (t & m' & X1 & X2 & X3). assert (t = text1) as -> by congruence.
  exists text, m'. split; [exact W|]. split; [congruence|]. exact (Forall2_of_map _ _ _ _ X3).
Qed.
Print Assumptions C149_distinct_first_words.
(** Then the surfaces around and inside the blocks are restored too (C80 for names of several words). *)
Theorem C149_relations_restored (F : Num) (m : LModel F) sides ws internals : num_ok F -> lso_shape m sides ->
  Forall2 (fun b w => first_word (k_name b) w) (l_blocks m) ws -> NoDup ws -> saved_apart m -> conforming m internals ->
  (forall s, In s (l_surfs m) -> f_tris s <> [] /\ all_different (surface_triangles s)) ->
  (forall b i, In b (l_blocks m) -> In i (internals (k_id b)) -> ~ In i (k_bounds b)) ->
  exists text m' ids, write_lso m sides = Ok text /\ read_lso F text = Ok m' /\
    NoDup ids /\ (forall i, In i ids <-> exists c, In c (l_horizons m ++ l_faults m ++ l_mbounds m) /\ In i (g_items c)) /\
    Forall2 (fun i h => exists s, In s (l_surfs m) /\ f_id s = i /\ tris_uv h = surface_triangles s) ids (i_surfs m') /\
    Forall2 (fun bw r => r_name r = snd bw /\ forall k i, nthz ids k = Some i ->
               (In k (r_bounds r) <-> In i (k_bounds (fst bw))) /\ (In k (r_internals r) <-> In i (internals (k_id (fst bw))))) (combine (l_blocks m) ws) (i_blocks m').
Proof.
  intros HF O HW ND SA CF HT HI. destruct (renamed_ok F m sides ws HF O HW ND) as (OK1 & text & text1 & W & W1 & E).
  destruct (C80_relations_restored F (renamed m ws) sides internals HF OK1) as (t & m' & ids & X1 & X2 & X3 & X4 & X5 & X6).
  - exact SA.
  - intros b s Hb Hs. cbn [renamed l_blocks] in Hb. apply in_map_iff in Hb as ([b0 w] & <- & Hi). apply in_combine_l in Hi. exact (CF b0 s Hi Hs).
  - exact HT.
  - intros b i Hb. cbn [renamed l_blocks] in Hb. apply in_map_iff in Hb as ([b0 w] & <- & Hi). apply in_combine_l in Hi. exact (HI b0 i Hi).
  - assert (t = text1) as -> by congruence. exists text, m', ids. split; [exact W|]. split; [congruence|]. split; [exact X3|]. split; [exact X4|]. split; [exact X5|].
    exact (Forall2_of_map _ _ _ _ X6).
Qed.
Print Assumptions C149_relations_restored.

(** The tetrahedra of the blocks whose name begins with [w], in order, with their blocks. *)
Inductive gathered {F} (w : bytes) : list (LBlock F) -> list (LBlock F * quad) -> Prop :=
| g_nil : gathered w [] []
| g_take b bs l : first_word (k_name b) w -> gathered w bs l -> gathered w (b :: bs) (map (pair b) (k_tets b) ++ l)
| g_skip b bs l : ~ first_word (k_name b) w -> gathered w bs l -> gathered w (b :: bs) l.
(** The corner [i] of a loaded block stands for the vertex [v] of block [b]: same unique vertex, same place. *)
Definition stands_for {F} (b : LBlock F) (r : LBlockR F) (v i : Z) : Prop :=
  exists u p p', nthz (k_uv b) v = Some u /\ nthz (k_points b) v = Some p /\ nthz (r_uv r) i = Some u /\ nthz (r_points r) i = Some p' /\ reread_point F p p'.
Definition made_of {F} (r : LBlockR F) (l : list (LBlock F * quad)) : Prop :=
  Forall2 (fun bt t' => Forall2 (stands_for (fst bt) r) (quad_list (snd bt)) (quad_list t')) l (r_tets r).

Fixpoint gather {F} (w : bytes) (bs : list (LBlock F)) : list (LBlock F * quad) :=
  match bs with [] => [] | b :: r => (if beq (word_of (k_name b)) w then map (pair b) (k_tets b) else []) ++ gather w r end.
Lemma gather_ok {F} w (bs : list (LBlock F)) : Forall (fun b => named (k_name b)) bs -> gathered w bs (gather w bs).
Proof.
  induction 1 as [|b bs [P [x Hx]] H IH]; [constructor|]. cbn [gather]. rewrite (first_word_of _ _ Hx). destruct (beq x w) eqn:E.
  - apply beq_eq in E as ->. now apply g_take.
  - apply g_skip; [|exact IH]. intros Hw. apply beq_neq in E. apply E. exact (first_word_unique _ _ _ Hx Hw).
Qed.
Lemma gather_in {F} w (bs : list (LBlock F)) b t : In (b, t) (gather w bs) -> In b bs /\ In t (k_tets b).
Proof.
  induction bs as [|x bs IH]; cbn [gather]; [intros []|]. intros H. apply in_app_or in H as [H|H].
  - destruct (beq _ w); [|destruct H]. apply in_map_iff in H as (t' & E & Ht). injection E as <- <-. split; [now left|exact Ht].
  - destruct (IH H). split; [now right|assumption].
Qed.
Lemma block_tets_app (a b : list (quad * bytes)) w : block_tets (a ++ b) w = block_tets a w ++ block_tets b w.
Proof. unfold block_tets. now rewrite filter_app, map_app. Qed.
Lemma block_tets_gather {F} (m : LModel F) rws w : block_tets (map cut_entry (entries m rws)) w = map (fun bt => qn rws (fst bt) (snd bt)) (gather w (l_blocks m)).
Proof.
  unfold entries. induction (l_blocks m) as [|b l IH]; [reflexivity|]. cbn [flat_map gather]. rewrite !map_app, block_tets_app, IH. f_equal.
  rewrite map_map. unfold cut_entry. cbn [fst snd]. induction (k_tets b) as [|t r IHt]; [destruct (beq _ w); reflexivity|].
  unfold block_tets in *. cbn [map filter snd]. destruct (beq (word_of (k_name b)) w); [|exact IHt]. cbn [map fst snd]. f_equal. exact IHt.
Qed.
Lemma Forall2_left {A B} (P : A -> Prop) (R : A -> B -> Prop) a b : Forall P a -> Forall2 R a b -> Forall2 (fun x y => P x /\ R x y) a b.
Proof. intros H K. revert H. induction K as [|x y a b H0 K IH]; intros H; inversion_clear H; constructor; auto. Qed.
Lemma Forall2_weaken {A B} (R R' : A -> B -> Prop) a b : Forall2 R a b -> (forall x y, R x y -> R' x y) -> Forall2 R' a b.
Proof. intros K H. induction K; constructor; auto. Qed.
Section Gathered.
Context {F : Num} (HF : num_ok F) (m : LModel F) (C : consistent m) (CO : colocated m) (HN : Forall (fun l => l <> []) (l_uv m)).
Notation np := (@empty_prop (num F)).
Let N := lenz (l_uv m).
Variables (ps : list (point F)) (rws : list row) (atoms : list Z).
Hypothesis NUM : numbered m 0 N (l_uv m) ps rws atoms.
Variables (new : list (point F)) (mp : list (list Z)).
Hypothesis HNEW : Forall2 (fun a p => nthz (map (rp F) ps) (a - 1) = Some p) atoms new.
Let sv : SolidV F := mkSolidV (map (rp F) ps ++ new) (rangez 0 (List.length ps) ++ map (fun a => a - 1) atoms) mp [].
Lemma corner_known b v : In b (l_blocks m) -> 0 <= v < lenz (k_points b) -> exists u p, nthz (k_uv b) v = Some u /\ nthz (k_points b) v = Some p /\
  nthz (sv_uid sv) (cn rws b v) = Some u /\ nthz (sv_points sv) (cn rws b v) = Some (rp F p).
Proof.
  intros Hb Hv. destruct (cn_ok m C HN ps rws atoms NUM b v Hb Hv) as [E R].
  destruct (corner_denotes m HN ps rws atoms NUM b v _ E) as [u [Hu [HD _]]].
  replace (cn rws b v + 1 - 1) with (cn rws b v) in HD by lia.
  assert (HX : nthz (sv_uid sv) (cn rws b v) = Some u).
  { cbn [sv_uid sv]. replace (rangez 0 (List.length ps) ++ map (fun a => a - 1) atoms)
        with (map (fun a => a - 1) (rangez 1 (List.length (l_uv m)) ++ atoms)).
    - rewrite nthz_map, HD. cbn [option_map]. f_equal. lia.
    - rewrite map_app. f_equal. destruct (numbered_lens _ _ _ _ _ _ _ NUM) as [-> _]. apply (rangez_pred 0). }
  destruct (uid_known m C ps rws atoms NUM new mp HNEW _ _ HX) as [p [Hp Hq]].
  destruct (consistent_point m b v u C Hb Hu) as [q Hq'].
  assert (p = q) as <- by (apply (CO u); [exact Hp|exists b, v; auto]). exists u, p. auto.
Qed.
Lemma build_gathered st ss w : Forall good_block (l_blocks m) -> st_tets st = map cut_entry (entries m rws) ->
  exists r bad, build_block F np np sv st ss w = Ok (r, bad) /\ r_name r = w /\ made_of r (gather w (l_blocks m)).
Proof.
  intros GB EE. unfold build_block. rewrite EE, block_tets_gather. set (G := gather w (l_blocks m)).
  assert (HG : forall b t v, In (b, t) G -> In v (quad_list t) -> In b (l_blocks m) /\ 0 <= v < lenz (k_points b)).
  { intros b t v Hi Hv. apply gather_in in Hi as [Hb Ht]. split; [exact Hb|]. rewrite Forall_forall in GB. destruct (GB b Hb) as [_ K]. rewrite Forall_forall in K. specialize (K t Ht). rewrite Forall_forall in K. now apply K. }
  destruct (use_tets_spec sv (map (fun bt => qn rws (fst bt) (snd bt)) G) no_vertex) as [us [ts' [E [[U1 U2 U3] [_ [HT HW]]]]]].
  - apply no_vertex_ok.
  - apply Forall_map, Forall_forall. intros [b t] Hi. cbn [fst snd]. rewrite qn_list. apply Forall_map, Forall_forall. intros v Hv.
    destruct (HG b t v Hi Hv) as [Hb Hr]. destruct (corner_known b v Hb Hr) as (u & p & _ & _ & H1 & H2). exists (rp F p), u. auto.
  - rewrite E. cbn [bind p_names p_esizes p_ndv empty_prop make_attributes]. eexists _, _. split; [reflexivity|]. split; [reflexivity|].
    unfold made_of, stands_for. cbn [r_tets r_uv r_points]. apply mapM_ok in U2, U3.
    clear -HT HG U2 U3 C CO HN HF NUM HNEW. revert ts' HT HG. induction G as [|[b t] G IH]; intros ts' HT HG; inversion_clear HT as [|? t' ? ? H0 H1]; constructor.
    + cbn [fst snd] in *. unfold tet_at in H0. rewrite qn_list in H0. assert (HQ : forall v, In v (quad_list t) -> In b (l_blocks m) /\ 0 <= v < lenz (k_points b)) by (intros v Hv; apply (HG b t v); [now left|exact Hv]).
      revert H0 HQ. generalize (quad_list t) (quad_list t'). induction l as [|v l IHl]; intros q' H0 HQ; inversion_clear H0 as [|? i ? ? K0 K1]; constructor.
      * destruct (HQ v (or_introl eq_refl)) as [Hb Hr]. destruct (corner_known b v Hb Hr) as (u & p & A1 & A2 & A3 & A4).
        destruct (Forall2_nthz _ _ _ U2 i _ K0) as (p' & B1 & B2). destruct (Forall2_nthz _ _ _ U3 i _ K0) as (u' & B3 & B4).
        apply idxz_ok in B2. apply idxz_ok in B4. assert (p' = rp F p) as -> by congruence. assert (u' = u) as -> by congruence.
        exists u, p, (rp F p). split; [exact A1|]. split; [exact A2|]. split; [exact B3|]. split; [exact B1|now apply reread_rp].
      * apply IHl; [assumption|]. intros x Hx. apply HQ. now right.
    + apply IH; [assumption|]. intros b0 t0 v0 Hi. apply HG. now right.
Qed.
End Gathered.

(** In all cases: each block is loaded under the first word of its name, with the tetrahedra of all the blocks whose name begins with that word. *)
Theorem C149_blocks_with_the_same_first_word (F : Num) (m : LModel F) sides : num_ok F -> lso_shape m sides ->
  exists text m', write_lso m sides = Ok text /\ read_lso F text = Ok m' /\
    Forall2 (fun b r => first_word (k_name b) (r_name r) /\ exists l, gathered (r_name r) (l_blocks m) l /\ made_of r l) (l_blocks m) (i_blocks m').
Proof.
  intros HF O. pose proof (ls_consistent m sides O) as C. pose proof (ls_colocated m sides O) as CO. pose proof (ls_rows m sides O) as HN. pose proof (ls_fits m sides O) as fits.
  destruct (shape_read HF m sides O) as (ps & rws & atoms & text & NUM & EW & ER).
  destruct (numbered_lens _ _ _ _ _ _ _ NUM) as [L1 [L2 L3]]. pose proof (numbered_atoms _ _ _ _ _ _ _ NUM) as HA. cbn [Z.add] in HA.
  assert (LP : lenz ps = lenz (l_uv m)) by (unfold lenz; now rewrite L1).
  destruct (solid_written HF ps atoms (lenz ps + 1)) as [new [mp [HNEW [HMP EV]]]]; [lia|lia|rewrite LP; exact HA|].
  unfold loaded_of in ER. rewrite EV in ER. cbn [bind] in ER.
  destruct (load_sects_ok HF m C ps rws atoms NUM new mp HNEW HMP (map cut_entry (entries m rws)) (secs m) (mkSurfSt [] [] false) [])
    as [ss [hs [H [ES _]]]]; [apply secs_small; [exact (shape_small m sides O)|exact (shape_items m sides O)]|].
  rewrite ES in ER. cbn [bind] in ER.
  set (sv := mkSolidV (map (rp F) ps ++ new) (rangez 0 (List.length ps) ++ map (fun a => a - 1) atoms) mp []) in *.
  assert (B : exists rs bad, build_blocks sv (mkSolidT (map cut_entry (entries m rws)) []) ss (map (fun b => word_of (k_name b)) (l_blocks m)) = Ok (rs, bad) /\
     Forall2 (fun b r => r_name r = word_of (k_name b) /\ made_of r (gather (r_name r) (l_blocks m))) (l_blocks m) rs).
  { generalize (l_blocks m) at 1 3. intros bs. induction bs as [|b bs IH]; [eexists _, _; split; [reflexivity|constructor]|].
    destruct (build_gathered HF m C CO HN ps rws atoms NUM new mp HNEW (mkSolidT (map cut_entry (entries m rws)) []) ss (word_of (k_name b)) (ls_blocks m sides O) eq_refl) as (r & bad & E & R1 & R2).
    destruct IH as (rs & bad' & E' & HR). cbn [map build_blocks]. fold sv in E. rewrite E. cbn [bind]. rewrite E'. cbn [bind]. eexists _, _. split; [reflexivity|].
    constructor; [|exact HR]. split; [exact R1|]. now rewrite R1. }
  destruct B as (rs & bad & EB & HB). rewrite EB in ER. cbn [bind] in ER. eexists text, _. split; [exact EW|]. split; [exact ER|]. cbn [i_blocks].
  pose proof (ls_names m sides O) as HK.
  assert (GA : forall w, gathered w (l_blocks m) (gather w (l_blocks m))) by (intros w; apply gather_ok; exact HK).
  apply (Forall2_weaken _ _ _ _ (Forall2_left _ _ _ _ HK HB)). cbn beta. intros b r [[_ [w Hw]] [R1 R2]]. rewrite (first_word_of _ _ Hw) in R1.
  split; [now rewrite R1|]. exists (gather (r_name r) (l_blocks m)). split; [apply GA|exact R2].
Qed.
Print Assumptions C149_blocks_with_the_same_first_word.

(** Two blocks in the model of PropsLso, with names of two words: with distinct first words, then with the same one. *)
Lemma ex_shape n1 n2 : named n1 -> named n2 -> lso_shape (ex_named n1 n2) ex_lsides.
Proof.
  intros H1 H2. destruct ex_lso_ok as [L1 L2 L3 L4 L5 L6 L7 L8 L9 L10 L11 L12 L13]. split; try assumption.
  - apply ex_consistent.
  - apply ex_colocated.
  - discriminate.
  - cbn [ex_named l_blocks] in *. inversion_clear L6 as [|? ? G1 G2]. inversion_clear G2 as [|? ? G3 _]. repeat (apply Forall_cons; [assumption|]). constructor.
  - cbn [ex_named l_blocks]. apply Forall_cons; [exact H1|]. apply Forall_cons; [exact H2|]. constructor.
  - cbn [ex_named l_blocks] in *. inversion_clear L12 as [|? ? G1 G2]. inversion_clear G2 as [|? ? G3 _]. repeat (apply Forall_cons; [assumption|]). constructor.
Qed.
Lemma two_words a b : token a -> token b -> named (a ++ SP :: b) /\ first_word (a ++ SP :: b) a.
Proof.
  intros A B. assert (W : first_word (a ++ SP :: b) a).
  { exists [], (SP :: b). split; [reflexivity|]. split; [constructor|]. destruct (token_first_word a A) as (x & c & _ & _ & H1 & _). split; [exact (proj1 A)|]. split.
    - destruct A as [_ A]. eapply Forall_impl; [|exact A]. intros y Hy Bl. apply blank_sep, sep_space in Bl. cbn beta in Hy. congruence.
    - right. exists SP, b. split; [reflexivity|now left]. }
  split; [|exact W]. split; [|now exists a]. apply plain_app; [now apply plain_token|]. apply plain_cons; [reflexivity|now apply plain_token].
Qed.
Example C149_case :
  (lso_shape (ex_named (lit "upper east") (lit "lower west")) ex_lsides /\
   Forall2 (fun b w => first_word (k_name b) w) (l_blocks (ex_named (lit "upper east") (lit "lower west"))) [lit "upper"; lit "lower"] /\ NoDup [lit "upper"; lit "lower"]) /\
  (lso_shape (ex_named (lit "upper east") (lit "upper west")) ex_lsides /\
   same_model (ex_named (lit "upper east") (lit "upper west")) (ex_named (lit "upper") (lit "upper")) /\
   exists l, gathered (lit "upper") (l_blocks (ex_named (lit "upper east") (lit "upper west"))) l /\ lenz l = 3).
Proof.
  assert (T1 : token (lit "upper")) by tok. assert (T2 : token (lit "east")) by tok. assert (T3 : token (lit "west")) by tok. assert (T4 : token (lit "lower")) by tok.
  destruct (two_words _ _ T1 T2) as [A1 A2]. destruct (two_words _ _ T1 T3) as [B1 B2]. destruct (two_words _ _ T4 T3) as [D1 D2].
  split; [split; [exact (ex_shape _ _ A1 D1)|split; [|nodup]]|split; [exact (ex_shape _ _ A1 B1)|split]].
  - cbn [ex_named l_blocks]. constructor; [exact A2|]. constructor; [exact D2|constructor].
  - repeat (split; [reflexivity|]). cbn [ex_named l_blocks]. constructor; [|constructor; [|constructor]];
      (repeat (split; [reflexivity|])); exists (lit "upper"); (split; [assumption|]); exact (token_first_word _ T1).
  - exists (gather (lit "upper") (l_blocks (ex_named (lit "upper east") (lit "upper west")))). split; [|vm_compute; reflexivity].
    apply gather_ok. cbn [ex_named l_blocks]. constructor; [exact A1|]. constructor; [exact B1|constructor].
Qed.
(** The conditions of C149_relations_restored, whatever the two names. *)
Example C149_relations_case n1 n2 : saved_apart (ex_named n1 n2) /\ conforming (ex_named n1 n2) ex_internals /\
  (forall s, In s (l_surfs (ex_named n1 n2)) -> f_tris s <> [] /\ all_different (surface_triangles s)) /\
  (forall b i, In b (l_blocks (ex_named n1 n2)) -> In i (ex_internals (k_id b)) -> ~ In i (k_bounds b)).
Proof.
  destruct C80_example as (_ & _ & H1 & H2 & H3 & H4 & _). split; [exact H1|]. split; [|split; [exact H3|]].
  - intros b s [<-|[<-|[]]] Hs; [exact (H2 (ex_west (lit "west")) s (or_introl eq_refl) Hs)|exact (H2 (ex_east (lit "east")) s (or_intror (or_introl eq_refl)) Hs)].
  - intros b i [<-|[<-|[]]]; [exact (H4 (ex_west (lit "west")) i (or_introl eq_refl))|exact (H4 (ex_east (lit "east")) i (or_intror (or_introl eq_refl)))].
Qed.
