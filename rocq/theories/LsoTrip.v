(** * Save then load of a .lso file. *)
From Coq Require Import ZArith List Lia Bool Ascii String Permutation.
From Verif Require Import Base Text TextFacts GocadModel MeshModel TsModel Spec GocadFacts TsFacts LsoModel LsoFacts LsoRead LsoRound LsoFile LsoWhole.
Import ListNotations.
Local Open Scope string_scope.
Local Open Scope list_scope.
Local Open Scope Z_scope.

Definition collections {F} (m : LModel F) : list LColl := l_horizons m ++ l_faults m ++ l_mbounds m.
(** The models that can be saved and loaded. *)
Record lso_ok {F} (m : LModel F) (sides : Z -> Z -> option bool) : Prop := {
  lo_consistent : consistent m;
  lo_colocated : colocated m;
  (* each unique vertex is a vertex of a block *)
  lo_rows : Forall (fun l => l <> []) (l_uv m);
  (* the number of vertex lines *)
  lo_fits : lenz (l_uv m) + nb_others (l_uv m) < two32;
  lo_some : l_blocks m <> [];
  lo_blocks : Forall good_block (l_blocks m);
  lo_names : Forall (fun b => token (k_name b)) (l_blocks m);
  lo_distinct : NoDup (map k_name (l_blocks m));
  lo_surfs : Forall (good_lsurf (lenz (l_uv m))) (l_surfs m);
  lo_items : Forall (fun c => Forall (fun i => In i (map f_id (l_surfs m))) (g_items c)) (collections m);
  lo_coll_names : Forall (fun c => plain (g_name c)) (collections m);
  lo_sides : Forall (fun b => exists s r side, k_bounds b = s :: r /\ sides (k_id b) s = Some side
                      /\ In s (flat_map g_items (collections m))) (l_blocks m);
  lo_title : forall t, l_title m = Some t -> is_line t
}.

Lemma lsurf_found {F} (m : LModel F) i : In i (map f_id (l_surfs m)) -> exists s, lsurf_of m i = Ok s /\ In s (l_surfs m) /\ f_id s = i.
Proof.
  unfold lsurf_of. intros H. destruct (find (fun s => f_id s =? i) (l_surfs m)) as [s|] eqn:E.
  - apply find_some in E. destruct E as [H1 H2]. apply Z.eqb_eq in H2. eauto.
  - apply in_map_iff in H. destruct H as [s [<- Hs]]. apply (find_none _ _ E) in Hs. rewrite Z.eqb_refl in Hs. discriminate.
Qed.
Lemma nums_nonneg n ids : 0 <= n -> Forall (fun e => 0 <= snd e) (nums n ids).
Proof.
  revert n. induction ids as [|i ids IH]; intros n H; cbn [nums]; constructor; [assumption|]. apply IH. unfold add32, wrap32, two32.
  apply Z.mod_pos_bound. lia.
Qed.
Lemma find_num n ids s : 0 <= n -> In s ids -> exists k, find (fun e => fst e =? s) (nums n ids) = Some (s, k) /\ 0 <= k.
Proof.
  intros Hn H. destruct (find (fun e => fst e =? s) (nums n ids)) as [[i k]|] eqn:E.
  - apply find_some in E. destruct E as [H1 H2]. apply Z.eqb_eq in H2. cbn [fst] in H2. subst i. exists k. split; [reflexivity|].
    pose proof (nums_nonneg n ids Hn) as HF. rewrite Forall_forall in HF. exact (HF _ H1).
  - rewrite <- (nums_fst n ids) in H. apply in_map_iff in H. destruct H as [e [<- He]]. apply (find_none _ _ E) in He.
    rewrite Z.eqb_refl in He. discriminate.
Qed.

Lemma goto_keywords_first kws l r b : existsb (starts_with l) kws = true ->
  goto_keywords kws (mkStream (l :: r) b) = Ok (l, mkStream r b).
Proof. intros H. exact (goto_keywords_hit kws [] l r b (Forall_nil _) H). Qed.

Section Trip.
Context {F : Num} (HF : num_ok F) (m : LModel F) (sides : Z -> Z -> option bool) (O : lso_ok m sides).
Let N := lenz (l_uv m).
Definition all_ids : list Z := fresh [] (flat_map g_items (collections m)).
Definition region_of (b : LBlock F) : bytes * bytes :=
  (k_name b, match k_bounds b with
             | [] => []
             | s :: _ => (match sides (k_id b) s with Some true => lit "+" | _ => lit "-" end) ++
                         show (match find (fun e => fst e =? s) (nums 1 all_ids) with Some e => snd e | None => 0 end)
             end).
Lemma good_items : Forall (fun c => Forall (good_item m) (g_items c)) (collections m).
Proof.
  eapply Forall_impl; [|exact (lo_items m sides O)]. intros c Hc. cbn beta in Hc. eapply Forall_impl; [|exact Hc]. intros i Hi. cbn beta in Hi.
  destruct (lsurf_found m i Hi) as [s [E [Hs _]]]. exists s. split; [assumption|]. pose proof (lo_surfs m sides O) as HS.
  rewrite Forall_forall in HS. now apply HS.
Qed.
Lemma N_small : N < two32.
Proof. pose proof (lo_fits m sides O). pose proof (nb_others_nonneg _ (lo_rows m sides O)). unfold N. lia. Qed.
Lemma region_ok b : In b (l_blocks m) ->
  region_line_of sides (nums 1 all_ids) b = Ok (region_text (region_of b)) /\ token (fst (region_of b)) /\ token (snd (region_of b)).
Proof.
  intros Hb. pose proof (lo_sides m sides O) as HS. rewrite Forall_forall in HS. destruct (HS b Hb) as [s [r [side [E1 [E2 Hs]]]]].
  pose proof (lo_names m sides O) as HK. rewrite Forall_forall in HK.
  unfold region_line_of, region_of. rewrite E1. unfold front. cbn [bind]. rewrite E2. cbn [bind].
  destruct (find_num 1 all_ids s) as [k [Ek Rk]]; [lia|unfold all_ids; apply fresh_in; split; [assumption|intros []]|].
  rewrite Ek. cbn [bind fst snd]. split; [unfold region_text; cbn [fst snd]; destruct side; reflexivity|]. split; [now apply HK|].
  destruct (show_token k Rk) as [T1 T2].
  destruct side; (split; [discriminate|]); constructor; auto.
Qed.
Definition secs : list (bytes * list (Z * list tri)) := secs_of m (collections m) [] 1.
Lemma surfaces_written : (do '(sl1, ex1, n1) <- write_surfaces m (l_horizons m) [] 1;
  do '(sl2, ex2, n2) <- write_surfaces m (l_faults m) ex1 n1;
  do '(sl3, ex3, n3) <- write_surfaces m (l_mbounds m) ex2 n2; Ok (sl1 ++ sl2 ++ sl3, ex3, n3))
  = Ok (flat_map sect_lines secs, nums 1 all_ids, after 1 all_ids).
Proof.
  pose proof (write_surfaces_ok m N_small (collections m) [] 1 good_items) as W. cbn [map app] in W. fold all_ids in W. fold secs in W.
  rewrite <- W. unfold collections. rewrite <- write_surfaces_app. apply bind_ext. intros [[l1 e1] n1] _.
  rewrite <- write_surfaces_app, !bind_assoc. apply bind_ext. intros [[l2 e2] n2] _. rewrite !bind_assoc. apply bind_ext. intros [[l3 e3] n3] _.
  reflexivity.
Qed.

Lemma lso_lines_ok : exists ps rws atoms, numbered m 0 N (l_uv m) ps rws atoms /\
  lso_lines m sides = Ok ([lit "GOCAD LightTSolid 1"] ++ write_header (l_title m) ++ write_CRS default_crs ++
      (lso_vrtx_lines 0 ps ++ shared_lines (N + 1) atoms) ++ flat_map tet_lines (entries m rws) ++ [lit "MODEL"] ++
      flat_map sect_lines secs ++ map region_text (map region_of (l_blocks m)) ++ [lit "END"])
  /\ Forall (fun e => quad_in (N + nb_others (l_uv m)) (fst e)) (entries m rws).
Proof.
  pose proof (lo_consistent m sides O) as C. pose proof (lo_rows m sides O) as HN. pose proof (lo_fits m sides O) as fits.
  destruct (uvs_total m C HN fits) as [ls [rws [atoms [ps [E [NUM ->]]]]]]. exists ps, rws, atoms. split; [exact NUM|].
  destruct (write_tetrahedra_ok m C HN ps rws atoms NUM (lo_blocks m sides O)) as [WT HT]. split; [|exact HT].
  unfold lso_lines, write_vertices. cbn zeta. rewrite E. cbn [bind]. fold N. rewrite WT. cbn [bind]. pose proof surfaces_written as WS.
  apply bind_ok in WS. destruct WS as [[[l1 e1] n1] [-> WS]]. cbn [bind]. apply bind_ok in WS. destruct WS as [[[l2 e2] n2] [-> WS]]. cbn [bind].
  apply bind_ok in WS. destruct WS as [[[l3 e3] n3] [-> WS]]. cbn [bind].
  assert (l1 ++ l2 ++ l3 = flat_map sect_lines secs) as E1 by congruence. assert (e3 = nums 1 all_ids) as -> by congruence.
  rewrite (mapM_ok_map _ (fun b => region_text (region_of b))) by (intros b Hb; now apply region_ok). cbn [bind].
  assert (add32 N 1 = N + 1 \/ atoms = []) as [-> | ->].
  { pose proof (nb_others_nonneg _ HN). pose proof (lenz_nonneg (l_uv m)). destruct (Z.eq_dec (N + 1) two32) as [X|X].
    - right. destruct (numbered_lens _ _ _ _ _ _ _ NUM) as [_ [_ L]]. unfold N in *.
      destruct atoms as [|a at']; [reflexivity|]. rewrite lenz_cons in L. pose proof (lenz_nonneg at'). lia.
    - left. unfold N in *. apply add32_small; lia. }
  - rewrite map_map. rewrite <- !app_assoc. do 6 f_equal. rewrite <- E1, <- !app_assoc. reflexivity.
  - rewrite map_map. cbn [shared_lines]. rewrite <- !app_assoc. do 6 f_equal. rewrite <- E1, <- !app_assoc. reflexivity.
Qed.

Lemma num_line_line kw ns : is_line kw -> Forall (fun n => 0 <= n) ns -> is_line (num_line kw ns).
Proof.
  intros H HS. apply is_line_app; [assumption|]. apply is_line_spaced. apply Forall_map. eapply Forall_impl; [|exact HS]. intros n Hn. cbn beta in Hn.
  apply token_line, show_token. lia.
Qed.
Lemma show_is_line n : 0 <= n -> is_line (show n).
Proof. intros. now apply token_line, show_token. Qed.
Lemma point_is_line (p : point F) : is_line (point_string p).
Proof.
  destruct p as [[x y] z]. destruct HF. unfold point_string. apply is_line_app; [now apply token_line|]. apply is_line_cons; [discriminate|].
  apply is_line_app; [now apply token_line|]. apply is_line_cons; [discriminate|]. now apply token_line.
Qed.
Lemma vrtx_is_line (ps : list (point F)) : forall v, 0 <= v -> Forall is_line (lso_vrtx_lines v ps).
Proof.
  induction ps as [|p ps IH]; intros v Hv; cbn [lso_vrtx_lines]; constructor; [|apply IH; lia].
  apply is_line_app; [isl|]. apply is_line_app; [apply show_is_line; lia|]. apply is_line_cons; [discriminate|]. apply point_is_line.
Qed.
Lemma shared_is_line atoms : forall c, 0 <= c -> Forall (fun a => 1 <= a) atoms -> Forall is_line (shared_lines c atoms).
Proof.
  induction atoms as [|a atoms IH]; intros c Hc HA; cbn [shared_lines]; constructor; inversion_clear HA.
  - apply is_line_app; [isl|]. apply is_line_app; [now apply show_is_line|]. apply is_line_cons; [discriminate|]. apply show_is_line. lia.
  - apply IH; [|assumption]. unfold add32, wrap32, two32. apply Z.mod_pos_bound. lia.
Qed.
Lemma tets_are_lines n es : Forall (fun e => quad_in n (fst e)) es -> Forall (fun e => token (snd e)) es -> Forall is_line (flat_map tet_lines es).
Proof.
  intros H1 H2. induction es as [|e es IH]; [constructor|]. inversion_clear H1 as [|? ? H3 H4]. inversion_clear H2 as [|? ? H5 H6]. cbn [flat_map tet_lines app]. constructor; [|constructor; [|now apply IH]].
  - apply num_line_line; [isl|]. eapply Forall_impl; [|exact H3]. cbn beta. lia.
  - unfold ctetra_line. apply is_line_app; [isl|]. apply is_line_app; [now apply token_line|isl].
Qed.
Lemma faces_nonneg n ids : 0 <= n -> Forall (fun f => 0 <= fst f) (faces m n ids).
Proof. intros H. unfold faces. apply Forall_map. exact (nums_nonneg n ids H). Qed.
Lemma after_nonneg ids : forall n, 0 <= n -> 0 <= after n ids.
Proof.
  induction ids as [|i ids IH]; intros n H; cbn [after fold_left]; [assumption|]. apply IH. unfold add32, wrap32, two32. apply Z.mod_pos_bound. lia.
Qed.
Lemma secs_nonneg cs : forall seen n, 0 <= n -> Forall (fun e => Forall (fun f => 0 <= fst f) (snd e)) (secs_of m cs seen n).
Proof.
  induction cs as [|c cs IH]; intros seen n H; cbn [secs_of]; [constructor|]. cbn zeta. destruct (fresh seen (g_items c)); [now apply IH|].
  constructor; [now apply faces_nonneg|]. apply IH. now apply after_nonneg.
Qed.
Lemma face_is_lines f : 0 <= fst f -> Forall (fun t => Forall (fun v => 0 <= v < N) (tri_list t)) (snd f) -> Forall is_line (face_lines f).
Proof.
  intros H0 H. unfold face_lines. constructor; [|constructor].
  - apply is_line_app; [isl|now apply show_is_line].
  - apply num_line_line; [isl|]. destruct (snd f) as [|t T]; [constructor|]. inversion_clear H as [|? ? Ht _]. eapply Forall_impl; [|exact Ht]. cbn beta. lia.
  - apply Forall_map. eapply Forall_impl; [|exact H]. intros t Ht. cbn beta in Ht. apply num_line_line; [isl|]. eapply Forall_impl; [|exact Ht]. cbn beta. lia.
Qed.
Lemma Forall_flat_map' {A B} (P : B -> Prop) (f : A -> list B) l : (forall x, In x l -> Forall P (f x)) -> Forall P (flat_map f l).
Proof. intros H. apply Forall_forall. intros y Hy. apply in_flat_map in Hy. destruct Hy as [x [Hx Hy]]. specialize (H x Hx). rewrite Forall_forall in H. auto. Qed.
Lemma secs_are_lines : Forall is_line (flat_map sect_lines secs).
Proof.
  apply Forall_flat_map'. intros e He. unfold sect_lines. constructor.
  - apply is_line_app; [isl|]. apply plain_line. pose proof (secs_plain m (collections m) [] 1 (lo_coll_names m sides O)) as H.
    rewrite Forall_forall in H. now apply H.
  - apply Forall_flat_map'. intros f Hf. apply face_is_lines.
    + pose proof (secs_nonneg (collections m) [] 1 ltac:(lia)) as H. rewrite Forall_forall in H. specialize (H e He). rewrite Forall_forall in H. now apply H.
    + pose proof (secs_small m N_small (collections m) [] 1 good_items) as H. rewrite Forall_forall in H. specialize (H e He). rewrite Forall_forall in H. now apply H.
Qed.
Lemma entries_names rws : Forall (fun e => token (snd e)) (entries m rws).
Proof.
  apply Forall_flat_map'. intros b Hb. apply Forall_map, Forall_forall. intros t _. cbn [snd]. pose proof (lo_names m sides O) as H. rewrite Forall_forall in H. now apply H.
Qed.
Lemma entries_some rws : entries m rws <> [].
Proof.
  unfold entries. pose proof (lo_some m sides O) as H1. pose proof (lo_blocks m sides O) as H2. destruct (l_blocks m) as [|b bs]; [congruence|].
  inversion_clear H2 as [|? ? [H3 _] _]. cbn [flat_map]. destruct (k_tets b) as [|t ts]; [congruence|]. cbn [map app]. discriminate.
Qed.
Lemma tetra_no_vrtx ns : Forall (fun n => 0 <= n) ns -> contains (num_line "TETRA" ns) "VRTX" = false.
Proof.
  intros H. change (lit "VRTX") with ("V"%char :: lit "RTX"). apply not_contains. unfold num_line. intros Hi. apply in_app_or in Hi.
  destruct Hi as [Hi|Hi]; [cbn in Hi; intuition discriminate|]. revert Hi. apply spaced_no; [discriminate|]. apply Forall_map.
  eapply Forall_impl; [|exact H]. intros n Hn. cbn beta in Hn. apply digits_no; [lia|reflexivity].
Qed.

(** The lines contain no end of line. *)
Lemma lso_are_lines ps rws atoms : numbered m 0 N (l_uv m) ps rws atoms ->
  Forall (fun e => quad_in (N + nb_others (l_uv m)) (fst e)) (entries m rws) ->
  Forall is_line ([lit "GOCAD LightTSolid 1"] ++ write_header (l_title m) ++ write_CRS default_crs ++
      (lso_vrtx_lines 0 ps ++ shared_lines (N + 1) atoms) ++ flat_map tet_lines (entries m rws) ++ [lit "MODEL"] ++
      flat_map sect_lines secs ++ map region_text (map region_of (l_blocks m)) ++ [lit "END"]).
Proof.
  intros NUM HT. pose proof (numbered_atoms _ _ _ _ _ _ _ NUM) as HA. cbn [Z.add] in HA. pose proof (lenz_nonneg (l_uv m)) as NP.
  apply Forall_app. split; [constructor; [isl|constructor]|]. apply Forall_app. split; [apply write_header_lines; exact (lo_title m sides O)|].
    apply Forall_app. split; [repeat (apply Forall_cons; [isl|]); constructor|]. apply Forall_app. split.
    { apply Forall_app. split; [apply vrtx_is_line; lia|]. apply shared_is_line; [unfold N; lia|]. eapply Forall_impl; [|exact HA]. cbn beta. lia. }
    apply Forall_app. split; [eapply tets_are_lines; [exact HT|apply entries_names]|]. apply Forall_app. split; [constructor; [isl|constructor]|].
    apply Forall_app. split; [apply secs_are_lines|]. apply Forall_app. split; [|constructor; [isl|constructor]].
    rewrite map_map. apply Forall_map, Forall_forall. intros b Hb. destruct (region_ok b Hb) as [_ [T1 T2]]. unfold region_text.
    apply is_line_app; [isl|]. apply is_line_app; [now apply token_line|]. apply is_line_cons; [discriminate|now apply token_line].
Qed.

(** What is read from the lines written. *)
Lemma load_sect_names sv tets ss : forall (st : SurfSt F) hs st' hs', foldM (load_sect sv tets) ss (st, hs) = Ok (st', hs') ->
  map (fun e => fst (fst e)) hs' = map (fun e => fst (fst e)) hs ++ map (fun e => normalise (fst e)) ss.
Proof.
  induction ss as [|e ss IH]; intros st hs st' hs' E.
  - cbn [foldM] in E. injection E as <- <-. now rewrite app_nil_r.
  - cbn [foldM] in E. apply bind_ok in E as ([st1 hs1] & E1 & E). unfold load_sect in E1. cbn [fst snd] in E1. apply bind_ok in E1 as (st2 & _ & E1).
    injection E1 as <- <-. rewrite (IH _ _ _ _ E), map_app, <- app_assoc. reflexivity.
Qed.
Lemma secs_of_names cs : forall seen n e, In e (secs_of m cs seen n) -> exists c, In c cs /\ fst e = g_name c.
Proof.
  induction cs as [|c cs IH]; intros seen n e H; [destruct H|]. cbn [secs_of] in H. cbv zeta in H. destruct (fresh seen (g_items c)).
  - destruct (IH _ _ _ H) as (c' & K1 & K2). exists c'. split; [now right|exact K2].
  - destruct H as [<-|H]; [exists c; split; [now left|reflexivity]|]. destruct (IH _ _ _ H) as (c' & K1 & K2). exists c'. split; [now right|exact K2].
Qed.
Lemma lso_round_named : exists text (ss : SurfSt F) hs rs bad,
  write_lso m sides = Ok text /\
  read_lso F text = Ok (mkLsoIn (option_map normalise (l_title m)) N (ss_surfs ss) hs rs bad) /\
  Forall2 (fun b r => block_like b r /\ r_vattrs r = [] /\ r_tattrs r = []) (l_blocks m) rs /\
  Forall2 (fun e h => surface_from m (normalise (fst e)) (snd e) h) (named_faces secs) (ss_surfs ss) /\
  (forall j h, nthz (ss_surfs ss) j = Some h -> exists a b, In (h_name h, a, b) hs /\ a <= j < b) /\
  (forall e, In e hs -> exists c, In c (collections m) /\ fst (fst e) = normalise (g_name c)).
Proof.
  pose proof (lo_consistent m sides O) as C. pose proof (lo_rows m sides O) as HN. pose proof (lo_fits m sides O) as fits.
  pose proof (lo_colocated m sides O) as CO. pose proof (nb_others_nonneg _ HN) as NN. pose proof N_small as NS. pose proof (lenz_nonneg (l_uv m)) as NP.
  destruct lso_lines_ok as [ps [rws [atoms [NUM [EL HT]]]]].
  destruct (numbered_lens _ _ _ _ _ _ _ NUM) as [L1 [L2 L3]].
  pose proof (numbered_atoms _ _ _ _ _ _ _ NUM) as HA. cbn [Z.add] in HA.
  assert (LP : lenz ps = N) by (unfold N, lenz; now rewrite L1).
  assert (HL : Forall is_line ([lit "GOCAD LightTSolid 1"] ++ write_header (l_title m) ++ write_CRS default_crs ++
      (lso_vrtx_lines 0 ps ++ shared_lines (N + 1) atoms) ++ flat_map tet_lines (entries m rws) ++ [lit "MODEL"] ++
      flat_map sect_lines secs ++ map region_text (map region_of (l_blocks m)) ++ [lit "END"])) by exact (lso_are_lines ps rws atoms NUM HT).
  destruct (solid_written HF ps atoms (N + 1)) as [new [mp [HNEW [HMP EV]]]]; [lia|lia|rewrite LP; exact HA|].
  destruct (load_sects_ok HF m C ps rws atoms NUM new mp HNEW HMP (entries m rws) secs (mkSurfSt [] [] false) [])
    as [ss [hs [H [ES [SS [FS HH]]]]]]; [apply secs_small; [exact NS|exact good_items]|]. cbn [ss_surfs app] in SS, ES, HH.
  set (sv := mkSolidV (map (rp F) ps ++ new) (rangez 0 (List.length ps) ++ map (fun a => a - 1) atoms) mp []) in *.
  destruct (build_blocks_ok HF m C CO HN ps rws atoms NUM new mp HNEW (mkSolidT (entries m rws) []) ss (l_blocks m))
    as [rs [bad [EB FB]]]; [|reflexivity|exact (lo_distinct m sides O)|].
  { intros b Hb. split; [assumption|]. pose proof (lo_blocks m sides O) as G. rewrite Forall_forall in G. now apply G. }
  exists (unlines ([lit "GOCAD LightTSolid 1"] ++ write_header (l_title m) ++ write_CRS default_crs ++
      (lso_vrtx_lines 0 ps ++ shared_lines (N + 1) atoms) ++ flat_map tet_lines (entries m rws) ++ [lit "MODEL"] ++
      flat_map sect_lines secs ++ map region_text (map region_of (l_blocks m)) ++ [lit "END"])),
    ss, H, rs, (ss_inspect ss || bad).
  split; [unfold write_lso; rewrite EL; reflexivity|]. split; [|split; [|split; [rewrite SS; exact FS|split; [rewrite SS; exact HH|]]]].
  3:{ pose proof (load_sect_names _ _ _ _ _ _ _ ES) as HNM. cbn [map app] in HNM. intros e He.
      assert (He' : In (fst (fst e)) (map (fun e => fst (fst e)) H)) by (apply in_map_iff; now exists e).
      rewrite HNM in He'. apply in_map_iff in He' as (x & X1 & X2). destruct (secs_of_names _ _ _ _ X2) as (c & C1 & C2). exists c. split; [exact C1|].
      now rewrite <- X1, C2. }
  2:{ clear -FB. induction FB as [|b r bs rs [H1 [H2 [H3 _]]] _ IH]; constructor; auto. }
  unfold read_lso. rewrite open_unlines by exact HL. cbn [app]. rewrite goto_if_next by reflexivity.
  rewrite read_header_written. cbn [bind]. rewrite read_CRS_default. cbn [bind].
  (* the first vertex line *)
  assert (exists p0 ps0, ps = p0 :: ps0) as [p0 [ps0 EPS]].
  { clear -LP NP C O NS. destruct ps as [|p0 ps0]; [|eauto]. exfalso. pose proof (lo_some m sides O) as G1. pose proof (lo_blocks m sides O) as G2. destruct (l_blocks m) as [|b bs] eqn:EBL; [congruence|].
    inversion_clear G2 as [|? ? [G3 G4] _]. destruct (k_tets b) as [|[[[x y] z] w] ts]; [congruence|]. inversion_clear G4 as [|? ? G5 _].
    cbn [quad_list] in G5. inversion_clear G5 as [|? ? G6 _]. pose proof (cu_len m C) as G7. pose proof (cu_inside m C) as G8. rewrite EBL in G7, G8.
    inversion_clear G7 as [|? ? G9 _]. inversion_clear G8 as [|? ? G10 _]. destruct (nthz_in_range (k_uv b) x) as [u Hu]; [unfold lenz in G6; lia|].
    rewrite Forall_forall in G10. specialize (G10 u (nthz_in _ _ _ Hu)). change (lenz []) with 0 in LP. unfold N in LP. lia. }
  assert (exists vl0 VL, lso_vrtx_lines 0 ps ++ shared_lines (N + 1) atoms = vl0 :: VL /\ Forall (fun x => contains x "VRTX" = true) VL
          /\ starts_with vl0 "PROPERTIES" = false /\ starts_with vl0 "TETRA_PROPERTIES" = false /\ starts_with vl0 "VRTX" = true) as [vl0 [VL [EVL [HVL [S1 [S2 S3]]]]]].
  { rewrite EPS. cbn [lso_vrtx_lines app]. eexists _, _. split; [reflexivity|]. split; [|repeat split; reflexivity].
    apply Forall_app. split; [apply vrtx_lines_contain|apply shared_lines_contain]. }
  rewrite EVL in *. cbn [app].
  unfold read_prop_header at 1, next_if. cbn [pending app]. rewrite S1. cbn [bind].
  unfold read_prop_header at 1, next_if. cbn [pending].
  change (lit "TETRA_" ++ lit "PROPERTIES") with (lit "TETRA_PROPERTIES"). rewrite S2. cbn [bind].
  unfold lso_body. change (map lit ["VRTX"; "PVRTX"]) with [lit "VRTX"; lit "PVRTX"].
  rewrite goto_keywords_first by (cbn [existsb]; rewrite S3; reflexivity). cbn [bind pending nl].
  destruct (entries m rws) as [|e0 es] eqn:EE; [exfalso; now apply (entries_some rws)|].
  pose proof (entries_names rws) as HK. rewrite EE in HK.
  assert (HT' : Forall (fun e => quad_in (lenz (map (rp F) ps ++ new)) (fst e) /\ token (snd e)) (e0 :: es)).
  { assert (lenz (map (rp F) ps ++ new) = N + nb_others (l_uv m)) as ->.
    { rewrite lenz_app, lenz_map, LP. f_equal. rewrite <- L3. unfold lenz. f_equal. clear -HNEW. induction HNEW; [reflexivity|]. cbn [List.length]. congruence. }
    clear -HT HK. induction HT as [|e l He HT IH]; inversion_clear HK; constructor; auto. }
  cbn [flat_map tet_lines app].
  rewrite lso_vertices_fold; [|exact HVL|inversion_clear HT' as [|? ? [Q _] _]; apply tetra_no_vrtx; eapply Forall_impl; [|exact Q]; cbn beta; lia].
  cbn [p_names empty_prop map]. rewrite EV. cbn [bind].
  unfold skip_indicators at 1.
  replace (starts_with (num_line "TETRA" (quad_list (fst e0))) (lit "BEGIN_" ++ lit "VERTEX" ++ lit "_REGION_INDICATORS")) with false by reflexivity.
  cbn [bind pending nl]. cbn [sv_points sv].
  rewrite (lso_tetras_written (lenz (map (rp F) ps ++ new)) es (mkSolidT [] []) e0 true (lit "MODEL")); [| |reflexivity|exact HT'].
  2:{ rewrite lenz_app, lenz_map, LP. assert (lenz new = nb_others (l_uv m)) as ->; [|exact fits].
      rewrite <- L3. unfold lenz. f_equal. clear -HNEW. induction HNEW; [reflexivity|]. cbn [List.length]. congruence. }
  cbn [bind st_tets st_vals app]. unfold skip_indicators at 1.
  replace (starts_with (lit "MODEL") (lit "BEGIN_" ++ lit "TETRA" ++ lit "_REGION_INDICATORS")) with false by reflexivity.
  cbn [bind]. replace (starts_with (lit "MODEL") (lit "MODEL")) with true by reflexivity. cbn [bind].
  (* the surfaces *)
  pose proof (lo_some m sides O) as HBL. destruct (l_blocks m) as [|b0 bs] eqn:EBL; [congruence|].
  assert (HREG : Forall (fun e => token (fst e) /\ token (snd e)) (map region_of (b0 :: bs))).
  { apply Forall_map, Forall_forall. intros b Hb. rewrite <- EBL in Hb. destruct (region_ok b Hb) as [_ HR]. exact HR. }
  assert (exists l1 r1, flat_map sect_lines secs ++ map region_text (map region_of (b0 :: bs)) ++ [lit "END"] = l1 :: r1) as [l1 [r1 E1]].
  { destruct secs; cbn [flat_map sect_lines map app]; eauto. }
  rewrite E1. unfold getline. cbn [pending nl]. cbv iota beta.
  rewrite (lso_surfaces_written sv (e0 :: es) secs _ (mkSurfSt [] [] false) [] l1 r1 true (region_text (region_of b0)) (map region_text (map region_of bs) ++ [lit "END"])).
  - rewrite ES. cbn [bind].
    rewrite (lso_blocks_written sv (mkSolidT (e0 :: es) []) ss (map region_of (b0 :: bs)) _ (region_text (region_of b0)) (map region_text (map region_of bs) ++ [lit "END"]) true (lit "END") []).
    + rewrite map_map. replace (map (fun x => fst (region_of x)) (b0 :: bs)) with (map k_name (b0 :: bs)) by reflexivity.
      fold sv in EB. rewrite EB. cbn [bind sv_map sv]. rewrite HMP, LP. reflexivity.
    + cbn [pending]. rewrite map_length, app_length, !map_length. cbn [List.length]. lia.
    + reflexivity.
    + exact HREG.
    + reflexivity.
  - cbn [pending]. apply (f_equal (@List.length _)) in E1. rewrite app_length in E1. cbn [List.length] in E1.
    assert (List.length secs <= List.length (flat_map sect_lines secs))%nat; [|lia].
    clear. induction secs as [|f fs IH]; cbn [flat_map sect_lines List.length app]; [lia|]. rewrite app_length. lia.
  - rewrite <- E1. reflexivity.
  - apply secs_plain. exact (lo_coll_names m sides O).
  - pose proof (secs_small m NS (collections m) [] 1 good_items) as G. eapply Forall_impl; [|exact G]. intros e He. cbn beta in He.
    eapply Forall_impl; [|exact He]. intros f Hf. cbn beta in Hf. eapply Forall_impl; [|exact Hf]. intros t Ht. cbn beta in Ht.
    unfold small_tri. eapply Forall_impl; [|exact Ht]. cbn beta. intros v Hv. fold N in Hv. unfold N in *. lia.
  - reflexivity.
  - reflexivity.
  - reflexivity.
Qed.
Lemma lso_round : exists text (ss : SurfSt F) hs rs bad,
  write_lso m sides = Ok text /\
  read_lso F text = Ok (mkLsoIn (option_map normalise (l_title m)) N (ss_surfs ss) hs rs bad) /\
  Forall2 (fun b r => block_like b r /\ r_vattrs r = [] /\ r_tattrs r = []) (l_blocks m) rs /\
  Forall2 (fun e h => surface_from m (normalise (fst e)) (snd e) h) (named_faces secs) (ss_surfs ss) /\
  (forall j h, nthz (ss_surfs ss) j = Some h -> exists a b, In (h_name h, a, b) hs /\ a <= j < b).
Proof.
  destruct lso_round_named as (text & ss & hs & rs & bad & K1 & K2 & K3 & K4 & K5 & _). exists text, ss, hs, rs, bad. auto.
Qed.
End Trip.
