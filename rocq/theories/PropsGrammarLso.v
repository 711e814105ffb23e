(** * C105: a GOCAD LightTSolid file, whoever wrote it, is loaded as the model it describes. *)
From Coq Require Import ZArith List Lia Bool Ascii String.
From Verif Require Import Base Text TextFacts Spec GocadModel GocadFacts MeshModel TsModel TsFacts LsoModel LsoFacts LsoRead LsoRound ExNum ExCheck
  Grammar GrammarFacts PropsGrammar GrammarLso GrammarLsoFacts.
Import ListNotations.
Local Open Scope string_scope.
Local Open Scope list_scope.
Local Open Scope Z_scope.

Section Whole.
Context {F : Num} (x : solid_text F) (sv : SolidV F).
Hypothesis HS : solid_state (x_props x) (x_vertices x) (x_copies x) sv.
Hypothesis HN : map vx_number (all_vertices x) = rangez 1 (List.length (all_vertices x)).

Lemma vertex_at n v : nthz (all_vertices x) n = Some v -> vx_number v = n + 1.
Proof.
  intros H. pose proof (nthz_range _ _ _ H) as R. assert (E : nthz (map vx_number (all_vertices x)) n = Some (vx_number v)) by (rewrite LsoFacts.nthz_map, H; reflexivity).
  rewrite HN, nthz_rangez in E by (unfold lenz in R; lia). assert (1 + n = vx_number v) by congruence. lia.
Qed.
Lemma declared_at n : declared (all_vertices x) n -> 1 <= n <= lenz (all_vertices x).
Proof. intros (v & Hv & <-). apply in_nthz in Hv as [i Hi]. rewrite (vertex_at i v Hi). apply nthz_range in Hi. lia. Qed.
Lemma declared_original n : declared (x_vertices x) n -> 1 <= n <= lenz (x_vertices x).
Proof.
  intros (v & Hv & <-). apply in_nthz in Hv as [i Hi]. rewrite (vertex_at i v); [apply nthz_range in Hi; lia|].
  unfold all_vertices. now apply LsoFacts.nthz_app_l.
Qed.
Lemma lenz_all : lenz (all_vertices x) = lenz (x_vertices x) + lenz (x_copies x).
Proof. unfold all_vertices. rewrite lenz_app, lenz_map. reflexivity. Qed.
Lemma known_at v : 0 <= v < lenz (all_vertices x) -> known sv v.
Proof.
  intros R. unfold known. destruct HS as [H1 H2 _ _].
  destruct (nthz_in_range (sv_points sv) v) as [p Hp]; [rewrite H1, map_length; exact R|].
  destruct (nthz_in_range (sv_uid sv) v) as [u Hu].
  { rewrite lenz_all in R. rewrite H2, app_length, rangez_length, map_length. unfold lenz in R. lia. }
  eauto.
Qed.
Lemma point_at v p : nthz (sv_points sv) v = Some p -> exists w, In w (all_vertices x) /\ vx_number w = v + 1 /\ vx_point w = p.
Proof.
  rewrite (so_points _ _ _ _ HS), LsoFacts.nthz_map. fold (all_vertices x). destruct (nthz (all_vertices x) v) as [w|] eqn:E; [|discriminate].
  intros [= <-]. exists w. split; [now apply nthz_in in E|]. split; [now apply vertex_at|reflexivity].
Qed.
Lemma uid_at v u : nthz (sv_uid sv) v = Some u -> original_of x (v + 1) (u + 1).
Proof.
  rewrite (so_uid _ _ _ _ HS). intros H. pose proof (nthz_range _ _ _ H) as R. rewrite lenz_app, lenz_map in R. unfold lenz at 1 in R. rewrite rangez_length in R.
  destruct (Z_lt_ge_dec v (lenz (x_vertices x))) as [L|L].
  - left. assert (E : nthz (rangez 0 (List.length (x_vertices x))) v = Some v) by (rewrite nthz_rangez by (unfold lenz in L; lia); f_equal; lia).
    apply (LsoFacts.nthz_app_l _ (map (fun c => fst c - 1) (x_copies x))) in E. assert (u = v) as -> by congruence. split; [reflexivity|].
    destruct (nthz_in_range (x_vertices x) v) as [w Hw]; [unfold lenz in L; lia|]. exists w. split; [now apply nthz_in in Hw|].
    apply vertex_at. unfold all_vertices. now apply LsoFacts.nthz_app_l.
  - right. replace v with (lenz (rangez 0 (List.length (x_vertices x))) + (v - lenz (x_vertices x))) in H by (unfold lenz; rewrite rangez_length; lia).
    rewrite nthz_app_r in H by lia. rewrite LsoFacts.nthz_map in H. destruct (nthz (x_copies x) (v - lenz (x_vertices x))) as [[o w]|] eqn:E; [|discriminate].
    cbn [option_map fst] in H. assert (o - 1 = u) by congruence. replace (u + 1) with o by lia. exists w. split; [now apply nthz_in in E|].
    apply vertex_at. unfold all_vertices. replace v with (lenz (x_vertices x) + (v - lenz (x_vertices x))) by lia. rewrite nthz_app_r by lia.
    rewrite LsoFacts.nthz_map, E. reflexivity.
Qed.

(** ** Meshes *)
Lemma Forall2_map_l {A B C} (f : A -> B) (P : B -> C -> Prop) a c : Forall2 (fun u => P (f u)) a c -> Forall2 P (map f a) c.
Proof. induction 1; cbn [map]; constructor; auto. Qed.
Lemma Forall2_map_l' {A B C} (f : A -> B) (P : B -> C -> Prop) a c : Forall2 P (map f a) c -> Forall2 (fun u => P (f u)) a c.
Proof. revert c. induction a as [|u a IH]; intros c H; inversion H; subst; constructor; auto. Qed.
Lemma Forall2_imp {A B} (P Q : A -> B -> Prop) a b : (forall u v, P u v -> Q u v) -> Forall2 P a b -> Forall2 Q a b.
Proof. intros H. induction 1; constructor; auto. Qed.
Lemma made {C} (corners : C -> list Z) (zero : C -> C) (given cells : list C) (us : Used F) :
  (forall c, corners (zero c) = map (fun n => n - 1) (corners c)) -> used_ok sv us ->
  Forall2 (fun c c' => Forall2 (fun v i => nthz (us_seen us) i = Some v) (corners c) (corners c')) (map zero given) cells ->
  (forall w, In w (us_seen us) <-> In w (flat_map corners (map zero given))) ->
  made_of corners x given (us_points us) (us_uv us) cells (map (fun v => v + 1) (us_seen us)).
Proof.
  intros HZ [U1 U2 U3] HC HU. constructor.
  - apply FinFun.Injective_map_NoDup; [|assumption]. intros a b E. lia.
  - intros n. rewrite in_map_iff. split.
    + intros (v & <- & Hv). apply HU in Hv. rewrite flat_map_concat_map, map_map, <- flat_map_concat_map in Hv. apply in_flat_map in Hv as (c & Hc & Hv).
      exists c. split; [assumption|]. rewrite HZ in Hv. apply in_map_iff in Hv as (m & <- & Hm). now replace (m - 1 + 1) with m by lia.
    + intros (c & Hc & Hn). exists (n - 1). split; [lia|]. apply HU. apply in_flat_map. exists (zero c). split; [now apply in_map|].
      rewrite HZ. apply in_map_iff. exists n. auto.
  - apply Forall2_map_l. apply mapM_ok in U2. eapply Forall2_imp; [|exact U2]. cbn beta. intros v p E. apply idxz_ok in E. now apply point_at.
  - apply Forall2_map_l. apply mapM_ok in U3. eapply Forall2_imp; [|exact U3]. cbn beta. intros v u E. apply idxz_ok in E. now apply uid_at.
  - apply Forall2_map_l' in HC. eapply Forall2_imp; [|exact HC]. cbn beta. intros c c' H. rewrite HZ in H. apply Forall2_map_l' in H.
    eapply Forall2_imp; [|exact H]. cbn beta. intros n i E. rewrite LsoFacts.nthz_map, E. cbn. f_equal. lia.
Qed.

(** ** Surfaces *)
Lemma tri_zero_list t : tri_list (tri_zero t) = map (fun n => n - 1) (tri_list t).
Proof. destruct t as [[a b] c]. reflexivity. Qed.
Lemma quad_zero_list t : quad_list (in_zero t) = map (fun n => n - 1) (quad_list t).
Proof. destruct t as [[[a b] c] d]. reflexivity. Qed.
Definition good_face (T : list tri) : Prop := Forall (fun t => Forall (declared (x_vertices x)) (tri_list t)) T.
Lemma face_loaded tets name st T : good_face T ->
  exists h st', load_face sv tets name st (map tri_zero T) = Ok st' /\ ss_surfs st' = ss_surfs st ++ [h] /\ surface_is x (name, T) h.
Proof.
  intros HG. unfold load_face.
  destruct (tri_steps_spec sv tets (lenz (ss_surfs st)) (map tri_zero T) (mkTriSt no_vertex [] (ss_facets st) (ss_inspect st))) as (st' & T' & E & U & _ & ET & FT & HU).
  - apply no_vertex_ok.
  - apply Forall_map. eapply Forall_impl; [|exact HG]. cbn beta. intros t Ht. rewrite tri_zero_list. apply Forall_map. eapply Forall_impl; [|exact Ht].
    cbn beta. intros n Hn. apply known_at. apply declared_original in Hn. rewrite lenz_all. pose proof (lenz_nonneg (x_copies x)). lia.
  - apply Forall_map. eapply Forall_impl; [|exact HG]. cbn beta. intros t Ht. rewrite tri_zero_list. apply Forall_map. eapply Forall_impl; [|exact Ht].
    cbn beta. intros n Hn. apply declared_original in Hn. rewrite (so_map _ _ _ _ HS). lia.
  - rewrite E. cbn [bind]. eexists _, _. split; [reflexivity|]. cbn [ss_surfs]. split; [reflexivity|]. split; [reflexivity|]. cbn [h_points h_tris h_uv snd].
    cbn [ts_tris ts_used app] in ET, HU. rewrite ET. exists (map (fun v => v + 1) (us_seen (ts_used st'))).
    eapply made; [apply tri_zero_list|assumption|exact FT|]. intros w. rewrite HU. cbn [no_vertex us_seen In]. tauto.
Qed.
Lemma faces_loaded tets name fs : forall st, Forall good_face fs ->
  exists new st', foldM (load_face sv tets name) (map (map tri_zero) fs) st = Ok st' /\ ss_surfs st' = ss_surfs st ++ new /\
    Forall2 (surface_is x) (map (pair name) fs) new.
Proof.
  induction fs as [|T fs IH]; intros st H; cbn [map foldM].
  - exists [], st. rewrite app_nil_r. repeat split; constructor.
  - inversion_clear H as [|? ? H1 H2]. destruct (face_loaded tets name st T H1) as (h & s1 & E1 & S1 & I1). rewrite E1. cbn [bind].
    destruct (IH s1 H2) as (new & s2 & E2 & S2 & I2). exists (h :: new), s2. split; [assumption|]. split; [|now constructor].
    rewrite S2, S1, <- app_assoc. reflexivity.
Qed.
Lemma horizons_loaded tets hs : forall st hs0, Forall (fun h => Forall good_face (snd h)) hs ->
  exists new rs st', foldM (load_horizon sv tets) hs (st, hs0) = Ok (st', hs0 ++ rs) /\ ss_surfs st' = ss_surfs st ++ new /\
    Forall2 (surface_is x) (flat_map (fun h => map (pair (fst h)) (snd h)) hs) new /\ horizons_are (lenz (ss_surfs st)) hs rs.
Proof.
  induction hs as [|e hs IH]; intros st hs0 H; cbn [foldM flat_map].
  - exists [], [], st. rewrite !app_nil_r. repeat split; constructor.
  - inversion_clear H as [|? ? H1 H2]. unfold load_horizon at 1. cbn [fst snd].
    destruct (faces_loaded tets (fst e) (snd e) st H1) as (n1 & s1 & E1 & S1 & I1). rewrite E1. cbn [bind].
    destruct (IH s1 (hs0 ++ [(fst e, lenz (ss_surfs st), lenz (ss_surfs s1))]) H2) as (n2 & rs & s2 & E2 & S2 & I2 & R2).
    exists (n1 ++ n2), ((fst e, lenz (ss_surfs st), lenz (ss_surfs s1)) :: rs), s2. rewrite <- app_assoc in E2. split; [exact E2|].
    split; [now rewrite S2, S1, <- app_assoc|]. split; [now apply Forall2_app|]. cbn [horizons_are].
    assert (L : lenz (ss_surfs s1) = lenz (ss_surfs st) + lenz (snd e)).
    { rewrite S1, lenz_app. f_equal. apply Forall2_len in I1. rewrite map_length in I1. unfold lenz. now rewrite I1. }
    rewrite L in R2 |- *. split; [reflexivity|exact R2].
Qed.

(** ** Blocks *)
Context (vh th : PropHeader (num F)).
Hypothesis Hv : head_of vh (x_props x).
Hypothesis Ht : head_of th (x_tprops x).
Hypothesis Sv : small_sizes (x_props x).
Hypothesis St : small_sizes (x_tprops x).
Hypothesis Dv : distinct_names (x_props x).
Hypothesis Dt : NoDup (map pr_name (x_tprops x)).
Hypothesis Ev : enough_cells x.
Hypothesis Hc : Forall (fun c => Forall (declared (all_vertices x)) (quad_list (c_corners c))) (x_cells x).
Hypothesis Rv : Forall (fun v => Forall2 (fun p w => Z.of_nat (List.length w) = pr_size p) (x_props x) (vx_values v)) (all_vertices x).
Hypothesis Rt : Forall (fun c => Forall2 (fun p w => Z.of_nat (List.length w) = pr_size p) (x_tprops x) (c_values c)) (x_cells x).
Lemma rows_valued_of {ps : list (property F)} rows : Forall (Forall2 (fun p w => Z.of_nat (List.length w) = pr_size p) ps) rows -> rows_valued rows 0 ps.
Proof.
  intros H j p Hj. eapply Forall_impl; [|exact H]. cbn beta. intros r Hr. cbn [Nat.add]. clear -Hr Hj. revert j Hj.
  induction Hr as [|q w ps r H1 H2 IH]; intros [|j] Hj; cbn in *; try discriminate; [congruence|now apply IH].
Qed.
Lemma block_loaded ss name : In name (x_regions x) -> exists b bad, build_block F vh th sv (cells_state (x_tprops x) (x_cells x)) ss name = Ok (b, bad) /\ block_is x name b.
Proof.
  intros Hname. unfold build_block. cbn [cells_state st_tets st_vals].
  set (given := map c_corners (filter (fun c => beq (c_block c) name) (x_cells x))).
  assert (EB : block_tets (map tet_of (x_cells x)) name = map in_zero given).
  { unfold block_tets, given. clear. induction (x_cells x) as [|c l IH]; [reflexivity|]. cbn [map filter tet_of snd]. destruct (beq (c_block c) name); cbn [map fst]; [f_equal|]; exact IH. }
  rewrite EB.
  destruct (use_tets_spec sv (map in_zero given) no_vertex) as (us & tets & E & U & _ & FT & HU).
  - apply no_vertex_ok.
  - apply Forall_map. unfold given. apply Forall_map. apply Forall_forall. intros c Hin. apply filter_In in Hin as [Hin _]. rewrite Forall_forall in Hc. specialize (Hc c Hin).
    rewrite quad_zero_list. apply Forall_map. eapply Forall_impl; [|exact Hc]. cbn beta. intros n Hn. apply known_at. apply declared_at in Hn. lia.
  - rewrite E. cbn [bind].
    assert (Mk : made_of quad_list x given (us_points us) (us_uv us) tets (map (fun v => v + 1) (us_seen us))).
    { eapply made; [apply quad_zero_list|assumption|exact FT|]. intros w. rewrite HU. cbn [no_vertex us_seen In]. tauto. }
    assert (Lp : List.length (us_points us) = List.length (us_seen us)).
    { destruct U as [_ U _]. apply mapM_ok in U. symmetry. exact (Forall2_len _ _ _ U). }
    assert (Sn : Forall (fun v => 0 <= v < lenz (all_vertices x)) (us_seen us)).
    { destruct U as [_ U _]. apply mapM_ok in U. clear -U HS. rewrite (so_points _ _ _ _ HS) in U. induction U as [|v p l r H1 H2 IH]; constructor; auto.
      apply idxz_ok, nthz_range in H1. rewrite lenz_map in H1. exact H1. }
    assert (Lt : List.length tets = List.length given) by (apply Forall2_len in FT; rewrite map_length in FT; congruence).
    destruct Hv as (Hv1 & Hv2 & Hv3). destruct Ht as (Ht1 & Ht2 & Ht3). rewrite Hv1, Hv2, Hv3, Ht1, Ht2, Ht3, (so_vals _ _ _ _ HS). fold (all_vertices x).
    unfold cols. rewrite (make_columns true (map vx_values (all_vertices x)) (x_props x) (List.length (us_points us)) (List.length (us_points us)) (map Z.to_nat (us_seen us)) Sv).
    2:{ rewrite map_length. lia. } 2:{ rewrite map_length. congruence. }
    2:{ apply Forall_map. eapply Forall_impl; [|exact Sn]. cbn beta. intros v Rg. rewrite map_length. unfold lenz in Rg. lia. }
    2:{ cbn [map app]. exact (proj1 Dv). } 2:{ intros _. exact (proj2 Dv). } 2:{ apply rows_valued_of. apply Forall_map. exact Rv. }
    cbn [bind app].
    assert (ET : exists ta, make_attributes false (List.length tets) (map pr_name (x_tprops x)) (map pr_size (x_tprops x)) (map pr_none (x_tprops x))
              (map (col (map c_values (x_cells x))) (seq 0 (List.length (x_tprops x)))) (List.length (us_points us)) (map Z.to_nat (us_seen us)) [] = Ok ta /\ map fst ta = map pr_name (x_tprops x)).
    { destruct Ev as [En|[E1 E2]].
      - rewrite En. exists []. split; reflexivity.
      - exists (attrs_mapped (map c_values (x_cells x)) (map Z.to_nat (us_seen us)) (List.length tets) 0 (x_tprops x)). split; [|apply attrs_mapped_names].
        apply (make_columns false (map c_values (x_cells x)) (x_tprops x) (List.length tets) (List.length (us_points us)) (map Z.to_nat (us_seen us)) St) with (k := 0%nat) (done := []).
        + rewrite map_length, Lt. specialize (E2 name (map (fun v => v + 1) (us_seen us)) Hname (mo_once _ _ _ _ _ _ _ Mk)).
          rewrite lenz_map in E2. unfold given. rewrite map_length. unfold lenz in E2. apply Nat2Z.inj_le. apply E2. intros n. rewrite (mo_used _ _ _ _ _ _ _ Mk n).
          unfold given. split.
          * intros (c & Hin & Hn). apply in_map_iff in Hin as (c0 & <- & Hin). apply filter_In in Hin as [Hin B]. apply beq_eq in B. eauto.
          * intros (c & Hin & B & Hn). exists (c_corners c). split; [|assumption]. apply in_map. apply filter_In. split; [assumption|]. rewrite B. apply beq_refl.
        + rewrite map_length. congruence.
        + apply Forall_map. apply Forall_forall. intros v Hin. rewrite map_length.
          assert (In (v + 1) (map (fun v => v + 1) (us_seen us))) as Hin' by (apply in_map_iff; eauto).
          apply (mo_used _ _ _ _ _ _ _ Mk) in Hin' as (c & Hc' & Hn). unfold given in Hc'. apply in_map_iff in Hc' as (c0 & <- & Hin0). apply filter_In in Hin0 as [Hin0 _].
          rewrite Forall_forall in E1. specialize (E1 c0 Hin0). rewrite Forall_forall in E1. specialize (E1 _ Hn).
          rewrite Forall_forall in Sn. specialize (Sn v Hin). unfold lenz in E1. lia.
        + exact Dt.
        + discriminate.
        + apply rows_valued_of. apply Forall_map. exact Rt. }
    destruct ET as (ta & -> & Nt). cbn [bind]. eexists _, _. split; [reflexivity|]. split; [reflexivity|]. cbn [r_points r_uv r_tets r_vattrs r_tattrs].
    exists (map (fun v => v + 1) (us_seen us)). split; [exact Mk|]. split; [apply attrs_mapped_names|]. split; [exact Nt|].
    intros j p Hj. destruct (attrs_mapped_nth (map vx_values (all_vertices x)) (map Z.to_nat (us_seen us)) (List.length (us_points us)) (x_props x) 0 j p Hj) as (d & Hd).
    eexists. split; [apply TsFacts.find_attr_in; [rewrite attrs_mapped_names; exact (proj1 Dv)|exact Hd]|].
    cbn [a_vals]. rewrite map_length, Lp, Nat.sub_diag. cbn [repeat]. rewrite app_nil_r. unfold mapped. rewrite map_map. cbn [Nat.add].
    apply Forall2_map_l. clear -Sn HN Rv Hj. induction Sn as [|v l Hv0 Sn IH]; cbn [map]; constructor; auto.
    destruct (nthz_in_range (all_vertices x) v Hv0) as [w Hw]. pose proof (vertex_at v w Hw) as Nw. apply nthz_some in Hw as [_ Hw]. exists w.
    pose proof (nth_error_In _ _ Hw) as Hin. split; [assumption|]. split; [assumption|].
    rewrite (nth_error_nth (map vx_values (all_vertices x)) (Z.to_nat v) [] (map_nth_error vx_values (Z.to_nat v) (all_vertices x) Hw)).
    apply nth_error_nth'. rewrite Forall_forall in Rv. specialize (Rv w Hin). apply Forall2_len in Rv. rewrite <- Rv. apply nth_error_Some. congruence.
Qed.
Lemma blocks_loaded ss names : incl names (x_regions x) -> exists bs bad, make_blocks vh th sv (cells_state (x_tprops x) (x_cells x)) ss names = Ok (bs, bad) /\ Forall2 (block_is x) names bs.
Proof.
  induction names as [|n names IH]; intros Hi; cbn [make_blocks]; [exists [], false; split; [reflexivity|constructor]|].
  destruct (block_loaded ss n (Hi n (or_introl eq_refl))) as (b & bad & E & HB). rewrite E. cbn [bind].
  destruct (IH (fun y Hy => Hi y (or_intror Hy))) as (bs & bad' & E2 & HB2). rewrite E2. cbn [bind]. eexists _, _. split; [reflexivity|]. now constructor.
Qed.
End Whole.

Lemma vertex_values F up (ps : list (property F)) ls vs cs : solid_vertices F up ps ls vs cs ->
  Forall (fun v => Forall2 (fun p w => Z.of_nat (List.length w) = pr_size p) ps (vx_values v)) (vs ++ map snd cs).
Proof.
  intros (l1 & l2 & _ & _ & H1 & H2 & _). apply Forall_app. split.
  - clear -H1. induction H1 as [|l v l1' vs' [_ (k & tn & tx & ty & tz & texts & a & b & c & _ & _ & _ & _ & _ & _ & _ & [V _])] H1 IH]; constructor; auto.
  - clear -H2. apply Forall_map. induction H2 as [|l v l1' vs' [_ (k & tn & ti & texts & _ & _ & _ & [V _])] H1 IH]; constructor; auto.
Qed.
Lemma cell_values F (ps : list (property F)) cl cs : Forall2 (cell_lines F ps) cl cs ->
  Forall (fun c => Forall2 (fun p w => Z.of_nat (List.length w) = pr_size p) ps (c_values c)) cs.
Proof. induction 1 as [|l c cl cs (l1 & l2 & _ & _ & (k & ta & tb & tc & td & texts & _ & _ & [V _]) & _) H IH]; constructor; auto. Qed.

Theorem C105_solid :
  forall (F : Num) ls (x : solid_text F),
    Forall is_line ls -> lso_says F ls x -> references x ->
    small_sizes (x_props x) -> small_sizes (x_tprops x) -> distinct_names (x_props x) -> NoDup (map pr_name (x_tprops x)) -> enough_cells x ->
    exists m, read_lso F (unlines ls) = Ok m /\ i_title m = x_title x /\ i_nuv m = lenz (x_vertices x) /\
      horizons_are 0 (x_horizons x) (i_horizons m) /\
      Forall2 (surface_is x) (named_faces x) (i_surfs m) /\
      Forall2 (block_is x) (x_regions x) (i_blocks m).
Proof.
  intros F ls x Hls (up & pb & tb & between & vl & iv & cl & it & skipped & model & hl & rl & last & rest & Ho & Hp & Hnp & Htp & Hnt & Hb & Hvx & Hiv & Hstop & Hne & Hcl & Hit & Hsk & Hm & Hhl & Hrl & Hla)
    [Rc Rh] Sv St Dv Dt Ev.
  unfold read_lso. rewrite open_unlines by assumption.
  set (tail := iv ++ List.concat cl ++ it ++ skipped ++ model :: List.concat hl ++ rl ++ last :: rest) in *.
  assert (Hvl : vl <> []).
  { destruct Hvx as (l1 & l2 & -> & Hv & H1 & _). destruct H1; [congruence|discriminate]. }
  assert (NN : forall kw A B (T : list bytes), A ++ B ++ T <> [] -> not_next kw (A ++ B) -> (A ++ B) <> [] -> not_next kw (A ++ B ++ T)).
  { intros kw A B T _ H Hn. rewrite app_assoc. destruct (A ++ B) as [|l r]; [congruence|exact H]. }
  destruct (object_head _ _ _ _ _ true Ho) as (crs & first & r & Hz & E1 & r' & E2 & E3).
  { destruct pb, tb, between, vl; try discriminate. congruence. }
  rewrite E1. cbn iota. rewrite E2. cbn [bind]. rewrite E3. cbn [bind].
  destruct (prefixed_read F [] pb (x_props x) (tb ++ between ++ vl ++ tail) true Hp) as (vh & E4 & Hvh).
  { intros E. specialize (Hnp E). rewrite !app_assoc in *. destruct ((tb ++ between) ++ vl) as [|l0 r0] eqn:E0; [|exact Hnp].
    apply app_eq_nil in E0 as [_ E0]. congruence. }
  { destruct tb, between, vl; try discriminate. congruence. }
  rewrite E4. cbn [bind].
  destruct (prefixed_read F "TETRA_" tb (x_tprops x) (between ++ vl ++ tail) true Htp) as (th & E5 & Hth).
  { intros E. specialize (Hnt E). rewrite !app_assoc in *. destruct (between ++ vl) as [|l0 r0] eqn:E0; [|exact Hnt].
    apply app_eq_nil in E0 as [_ E0]. congruence. }
  { destruct between, vl; try discriminate. congruence. }
  rewrite E5. cbn [bind]. unfold lso_body.
  (* vertices *)
  assert (HN : map vx_number (all_vertices x) = rangez 1 (List.length (all_vertices x))).
  { destruct Hvx as (_ & _ & _ & _ & _ & _ & _ & H). exact H. }
  assert (Rc1 : Forall (fun c => Forall (fun v => 1 <= v <= lenz (all_vertices x)) (quad_list (c_corners c))) (x_cells x)).
  { eapply Forall_impl; [|exact Rc]. cbn beta. intros c H. eapply Forall_impl; [|exact H]. cbn beta. intros n Hn. now apply (declared_at x HN). }
  assert (exists l0 r0, skipped ++ model :: List.concat hl ++ rl ++ last :: rest = l0 :: r0 /\ starts_not "TETRA" l0 /\
    starts_not "BEGIN_TETRA_REGION_INDICATORS" l0 /\
    forall prev, exists line5 s6, (if starts_with l0 "MODEL" then Ok (l0, mkStream r0 true) else do '(_, s) <- goto_keyword "MODEL" (mkStream r0 true); Ok (l0, s)) = Ok (line5, s6) /\
      s6 = mkStream (List.concat hl ++ rl ++ last :: rest) true /\ prev = prev :> bytes) as (l0 & r0 & E0 & Sl0 & Sl1 & Em).
  { destruct skipped as [|l0 sk].
    - exists model, (List.concat hl ++ rl ++ last :: rest). split; [reflexivity|]. split; [eapply starts_both; [exact Hm| |]; reflexivity|].
      split; [eapply starts_both; [exact Hm| |]; reflexivity|]. intros prev. rewrite Hm. eauto.
    - inversion_clear Hsk as [|? ? (S1 & S2 & S3) Hsk']. exists l0, (sk ++ model :: List.concat hl ++ rl ++ last :: rest). split; [reflexivity|]. split; [assumption|].
      split; [assumption|]. intros prev. rewrite S3. rewrite goto_keyword_first; [cbn [bind]; eauto| |assumption]. eapply Forall_impl; [|exact Hsk']. cbn beta. tauto. }
  destruct (indicators_read "TETRA" it l0 r0 true Hit) as (l1 & r1 & EI & EI2); [left; exact Sl1|].
  assert (Sl : starts_not "TETRA" l1).
  { destruct Hit as [->|(fi & inn & la & -> & Hf & _)]; cbn [app] in EI; injection EI as <- <-; [assumption|]. eapply starts_both; [exact Hf| |]; reflexivity. }
  destruct (cells_section th (x_tprops x) (lenz (all_vertices x)) Hth St true l1 r1 Sl cl (x_cells x) Hcl Rc1 Hne []) as (c0 & C0 & EC & Sc & EC2). cbn [app] in EC2.
  destruct (indicators_read "VERTEX" iv c0 (C0 ++ l1 :: r1) true Hiv) as (v1 & R1 & EV & EV2); [left; eapply starts_both; [exact Sc| |]; reflexivity|].
  assert (Ctail : tail = v1 :: R1).
  { unfold tail. rewrite E0, EI, EC. exact EV. }
  assert (Hv1 : contains v1 "VRTX" = false).
  { destruct (iv ++ List.concat cl) as [|l2 r2] eqn:E6.
    - apply app_eq_nil in E6 as [_ E6]. rewrite E6 in EC. discriminate EC.
    - unfold tail in Ctail. rewrite app_assoc, E6 in Ctail. injection Ctail as -> _. exact (Hstop _ _ eq_refl). }
  destruct (vertex_section up crs vh (x_props x) Hz Hvh Sv true vl (x_vertices x) (x_copies x) R1 v1 Hvx Hv1) as (l & L & sv & -> & Hl & HS & _ & ES).
  rewrite Ctail. cbn [app]. rewrite goto_keywords_hit.
  2:{ eapply Forall_impl; [|exact Hb]. cbn beta. intros y [Y1 Y2]. cbn [map existsb]. unfold starts_not in Y1, Y2. rewrite Y1, Y2. reflexivity. }
  2:{ cbn [map existsb]. destruct Hl as [Hl|Hl]; unfold starts in Hl; rewrite Hl; [reflexivity|]. apply orb_true_r. }
  cbn [bind pending nl]. rewrite ES. cbn [bind]. rewrite EV2. cbn [bind pending nl].
  assert (EP : lenz (sv_points sv) = lenz (all_vertices x)) by (rewrite (so_points _ _ _ _ HS); apply lenz_map).
  assert (ET0 : mkSolidT [] (map (fun _ => []) (p_names th)) = cells_state (x_tprops x) []).
  { unfold cells_state. cbn [map]. f_equal. apply cols_nil. destruct Hth as (-> & _). apply map_length. }
  rewrite ET0, EP, EC2. cbn [bind]. rewrite EI2. cbn [bind]. destruct (Em l0) as (line5 & s6 & -> & -> & _). cbn [bind].
  destruct (horizons_loaded x sv HS HN (map tet_of (x_cells x)) (x_horizons x) (mkSurfSt [] [] false) [] Rh) as (surfs & hs & ss & EH & SS & IS & IH).
  assert (PH : Forall (fun h => Forall (Forall positive_tri) (snd h)) (x_horizons x)).
  { eapply Forall_impl; [|exact Rh]. cbn beta. intros h H. eapply Forall_impl; [|exact H]. cbn beta. intros fc H1. eapply Forall_impl; [|exact H1]. cbn beta.
    intros t H2. unfold positive_tri. eapply Forall_impl; [|exact H2]. cbn beta. intros n Hn. apply (declared_original x HN) in Hn. lia. }
  destruct Hla as (La1 & La2 & La3 & La4).
  assert (exists l2 r2, rl ++ last :: rest = l2 :: r2 /\ starts_not "SURFACE" l2 /\ starts_not "TFACE" l2 /\ starts_not "TRGL" l2) as (l2 & r2 & E7 & Q1 & Q2 & Q3).
  { destruct Hrl as [|y n rl names [Hy _] Hrl]; [exists last, rest; auto|]. exists y, (rl ++ last :: rest). split; [reflexivity|].
    split; [|split]; (eapply starts_both; [exact Hy| |]; reflexivity). }
  assert (Lh : (List.length (x_horizons x) <= List.length (List.concat hl))%nat).
  { clear -Hhl. induction Hhl as [|y e hl hs Hy H IH]; cbn; [lia|]. destruct Hy as (? & ? & ? & ? & -> & _). rewrite app_length. cbn [List.length]. lia. }
  rewrite E7. assert (exists l3 r3, List.concat hl ++ l2 :: r2 = l3 :: r3) as (l3 & r3 & E8) by (destruct (List.concat hl); cbn [app]; eauto).
  rewrite E8. unfold getline. cbn [pending nl]. cbv iota beta. cbn [pending].
  destruct (horizons_read sv (map tet_of (x_cells x)) l2 r2 true Q1 Q2 Q3 hl (x_horizons x) Hhl PH (S (S (List.length r3))) (mkSurfSt [] [] false) []) as (l4 & r4 & E9 & _ & _ & E10).
  { apply (f_equal (@List.length _)) in E8. rewrite app_length in E8. cbn [List.length] in E8. lia. }
  rewrite E8 in E9. injection E9 as <- <-. change (st_tets (cells_state (x_tprops x) (x_cells x))) with (map (@tet_of F) (x_cells x)). rewrite E10, EH. cbn [bind app].
  destruct (regions_read vh th sv (cells_state (x_tprops x) (x_cells x)) ss last rest true La4 rl (x_regions x) Hrl (S (S (List.length r2)))) as (l5 & r5 & E11 & E12).
  { apply (f_equal (@List.length _)) in E7. rewrite app_length in E7. cbn [List.length] in E7. apply Forall2_len in Hrl. lia. }
  rewrite E7 in E11. injection E11 as <- <-. cbn [pending]. rewrite E12.
  destruct (blocks_loaded x sv HS HN vh th Hvh Hth Sv St Dv Dt Ev Rc (vertex_values _ _ _ _ _ _ Hvx) (cell_values _ _ _ _ Hcl) ss (x_regions x) (incl_refl _)) as (bs & bad & EB & IB).
  rewrite EB. cbn [bind]. eexists. split; [reflexivity|]. cbn [i_title i_nuv i_horizons i_surfs i_blocks]. split; [reflexivity|].
  split; [exact (so_map _ _ _ _ HS)|]. cbn [app] in *. split; [exact IH|]. cbn [ss_surfs app] in SS. rewrite SS. split; [exact IS|exact IB].
Qed.
Print Assumptions C105_solid.

(** ** Examples *)
Ltac lso_lines_ok := apply Forall_forall; let l := fresh "l" in let Hl := fresh "Hl" in intros l Hl; apply lineb_ok; revert l Hl; apply forallb_forall; reflexivity.
Ltac lso_rows := split; [repeat constructor|];
  match goal with |- exists used more, ?texts = _ /\ _ => exists texts, []; split; [rewrite app_nil_r; reflexivity|repeat constructor] end.
Ltac lso_vertex_ok := split; [first [left; reflexivity|right; reflexivity]|];
  do 6 eexists; do 3 eexists; split; [reflexivity|]; split; [cbn; tauto|]; do 5 (split; [reflexivity|]); lso_rows.
Ltac lso_copy_ok := split; [first [left; reflexivity|right; reflexivity]|]; do 4 eexists; split; [reflexivity|]; do 2 (split; [reflexivity|]); lso_rows.
Ltac lso_cell_ok := do 2 eexists; split; [reflexivity|]; split; [reflexivity|]; split;
  [do 6 eexists; split; [reflexivity|]; split; [repeat constructor|lso_rows]|do 3 eexists; reflexivity].
Ltac lso_face_ok := do 3 eexists; split; [reflexivity|]; split; [reflexivity|];
  repeat (apply Forall2_cons; [split; [reflexivity|]; do 4 eexists; split; [reflexivity|]; repeat split; reflexivity|]); apply Forall2_nil.

(** A file of another program: depths, a property of the vertices, two regions glued by a surface, region indicators. *)
Definition ex_lso_props : list bytes := map lit ["PROPERTIES porosity"; "PROP_LEGAL_RANGES **none** **none**"; "NO_DATA_VALUES -1"; "PROPERTY_CLASSES a";
  "PROPERTY_KINDS r"; "PROPERTY_SUBCLASSES QUANTITY Float"; "ESIZES 1"; "UNITS n"].
Definition ex_lso_vs : list (vertex ExNum) := [mkVertex (F := ExNum) 1 (0, 0, 0) [[10]]; mkVertex (F := ExNum) 2 (1, 0, 0) [[20]]; mkVertex (F := ExNum) 3 (0, 1, 0) [[30]];
  mkVertex (F := ExNum) 4 (0, 0, -5) [[40]]; mkVertex (F := ExNum) 5 (0, 0, 7) [[50]]].
Definition ex_lso_cs : list (Z * vertex ExNum) := [(2, mkVertex (F := ExNum) 6 (1, 0, 0) [[21]]); (1, mkVertex (F := ExNum) 7 (0, 0, 0) [[11]]); (3, mkVertex (F := ExNum) 8 (0, 1, 0) [[31]])].
Definition ex_lso : list bytes := [lit "GOCAD LightTSolid 1"; lit "HEADER {"; lit "name: glued  blocks"; lit "}"; lit "GOCAD_ORIGINAL_COORDINATE_SYSTEM";
  lit "ZPOSITIVE Depth"; lit "END_ORIGINAL_COORDINATE_SYSTEM"] ++ ex_lso_props ++
  map lit ["# data"; "PVRTX 1 0 0 0 10"; "PVRTX 2 1 0 0 20"; "PVRTX 3 0 1 0 30"; "PVRTX 4 0 0 5 40"; "PVRTX 5 0 0 -7 50";
           "SHAREDPVRTX 6 2 21"; "SHAREDPVRTX 7 1 11"; "SHAREDPVRTX 8 3 31";
           "BEGIN_VERTEX_REGION_INDICATORS"; "V 1"; "END_VERTEX_REGION_INDICATORS";
           "TETRA 1 2 3 4"; "# CTETRA low a b c d"; "TETRA 7 6 8 5"; "# CTETRA high a b c d";
           "BEGIN_TETRA_REGION_INDICATORS"; "END_TETRA_REGION_INDICATORS"; "comment"; "MODEL";
           "SURFACE the interface"; "TFACE 1"; "KEYVERTICES 1 2 3"; "TRGL 1 2 3"; "SURFACE sides"; "TFACE 2"; "KEYVERTICES 1 2 4"; "TRGL 1 2 4"; "TRGL 2 3 4";
           "TFACE 3"; "KEYVERTICES 1 2 5"; "TRGL 5 2 1"; "MODEL_REGION low +1"; "MODEL_REGION high -1"; "END"; "anything"].
Definition ex_lso_text : solid_text ExNum := mkSolidText (F := ExNum) (Some (lit "glued blocks")) [mkProperty (F := ExNum) (lit "porosity") 1 (-1)] [] ex_lso_vs ex_lso_cs
  [mkCell (F := ExNum) (1, 2, 3, 4) (lit "low") []; mkCell (F := ExNum) (7, 6, 8, 5) (lit "high") []]
  [(lit "the interface", [[(1, 2, 3)]]); (lit "sides", [[(1, 2, 4); (2, 3, 4)]; [(5, 2, 1)]])] [lit "low"; lit "high"].
Example C105_example_says : lso_says ExNum ex_lso ex_lso_text.
Proof.
  exists false, ex_lso_props, [], [lit "# data"],
    (map lit ["PVRTX 1 0 0 0 10"; "PVRTX 2 1 0 0 20"; "PVRTX 3 0 1 0 30"; "PVRTX 4 0 0 5 40"; "PVRTX 5 0 0 -7 50"; "SHAREDPVRTX 6 2 21"; "SHAREDPVRTX 7 1 11"; "SHAREDPVRTX 8 3 31"]),
    (map lit ["BEGIN_VERTEX_REGION_INDICATORS"; "V 1"; "END_VERTEX_REGION_INDICATORS"]),
    [map lit ["TETRA 1 2 3 4"; "# CTETRA low a b c d"]; map lit ["TETRA 7 6 8 5"; "# CTETRA high a b c d"]],
    (map lit ["BEGIN_TETRA_REGION_INDICATORS"; "END_TETRA_REGION_INDICATORS"]), [lit "comment"], (lit "MODEL"),
    [map lit ["SURFACE the interface"; "TFACE 1"; "KEYVERTICES 1 2 3"; "TRGL 1 2 3"];
     map lit ["SURFACE sides"; "TFACE 2"; "KEYVERTICES 1 2 4"; "TRGL 1 2 4"; "TRGL 2 3 4"; "TFACE 3"; "KEYVERTICES 1 2 5"; "TRGL 5 2 1"]],
    (map lit ["MODEL_REGION low +1"; "MODEL_REGION high -1"]), (lit "END"), [lit "anything"].
  split.
  { exists [], (lit "GOCAD LightTSolid 1"), [lit "HEADER {"; lit "name: glued  blocks"; lit "}"],
      [lit "GOCAD_ORIGINAL_COORDINATE_SYSTEM"; lit "ZPOSITIVE Depth"; lit "END_ORIGINAL_COORDINATE_SYSTEM"].
    split; [reflexivity|]. split; [constructor|]. split; [reflexivity|]. split; [|split; [|discriminate]].
    + exists (lit "HEADER {"), [lit "name: glued  blocks"], (lit "}"). split; [reflexivity|]. split; [reflexivity|]. split; [repeat constructor|]. split; [reflexivity|]. right.
      exists [], (lit "name: glued  blocks"), [], (lit " glued  blocks"). repeat split; try reflexivity. constructor.
    + right. exists (lit "GOCAD_ORIGINAL_COORDINATE_SYSTEM"), [lit "ZPOSITIVE Depth"], (lit "END_ORIGINAL_COORDINATE_SYSTEM").
      split; [reflexivity|]. split; [reflexivity|]. split; [repeat constructor|]. split.
      { constructor; [|constructor]. exists (lit "ZPOSITIVE"), [lit "Depth"]. split; [reflexivity|discriminate]. }
      split; [|reflexivity]. right. exists [], (lit "ZPOSITIVE Depth"), [], (lit "Depth"), [].
      split; [reflexivity|]. split; [reflexivity|]. split; [split; discriminate|constructor]. }
  split.
  { right. right. split; [discriminate|].
    exists (lit "PROPERTIES porosity"), (lit "PROPERTIES"), [lit "PROP_LEGAL_RANGES **none** **none**"], [lit "NO_DATA_VALUES -1"], [lit "PROPERTY_CLASSES a"], [lit "PROPERTY_KINDS r"],
      [lit "PROPERTY_SUBCLASSES QUANTITY Float"], [lit "ESIZES 1"], [lit "UNITS n"].
    split; [reflexivity|]. split; [reflexivity|]. split; [reflexivity|].
    assert (U : forall kw l, starts_with l kw = true -> up_to kw [l] l).
    { intros kw l H. exists []. split; [reflexivity|]. split; [constructor|exact H]. }
    split; [|split; [|split; [|split; [|split; [|split]]]]].
    + eexists. split; [apply U; reflexivity|vm_compute; exact I].
    + exists (lit "NO_DATA_VALUES -1"), (lit "NO_DATA_VALUES"), [lit "-1"], []. split; [apply U; reflexivity|]. split; [reflexivity|]. repeat constructor.
    + exists (lit "PROPERTY_CLASSES a"), (lit "PROPERTY_CLASSES"), [lit "a"]. split; [apply U; reflexivity|]. split; [reflexivity|cbn; lia].
    + exists (lit "PROPERTY_KINDS r"), (lit "PROPERTY_KINDS"), [lit "r"]. split; [apply U; reflexivity|]. split; [reflexivity|cbn; lia].
    + eexists. split; [apply U; reflexivity|vm_compute; exact I].
    + exists (lit "ESIZES 1"), (lit "ESIZES"), [lit "1"], []. split; [apply U; reflexivity|]. split; [reflexivity|]. repeat constructor.
    + exists (lit "UNITS n"), (lit "UNITS"), [lit "n"]. split; [apply U; reflexivity|]. split; [reflexivity|cbn; lia]. }
  split; [discriminate|]. split; [now left|]. split; [reflexivity|]. split; [repeat constructor|].
  split.
  { exists (map lit ["PVRTX 1 0 0 0 10"; "PVRTX 2 1 0 0 20"; "PVRTX 3 0 1 0 30"; "PVRTX 4 0 0 5 40"; "PVRTX 5 0 0 -7 50"]), (map lit ["SHAREDPVRTX 6 2 21"; "SHAREDPVRTX 7 1 11"; "SHAREDPVRTX 8 3 31"]).
    split; [reflexivity|]. split; [discriminate|].
    split; [cbn [map x_vertices ex_lso_text ex_lso_vs]; repeat (apply Forall2_cons; [lso_vertex_ok|]); apply Forall2_nil|].
    split; [cbn [map x_copies ex_lso_text ex_lso_cs]; repeat (apply Forall2_cons; [lso_copy_ok|]); apply Forall2_nil|].
    split; [|reflexivity]. repeat apply Forall_cons; try apply Forall_nil; [exists (mkVertex (F := ExNum) 2 (1, 0, 0) [[20]])|exists (mkVertex (F := ExNum) 1 (0, 0, 0) [[10]])|
      exists (mkVertex (F := ExNum) 3 (0, 1, 0) [[30]])]; (split; [cbn; tauto|split; reflexivity]). }
  split; [right; exists (lit "BEGIN_VERTEX_REGION_INDICATORS"), [lit "V 1"], (lit "END_VERTEX_REGION_INDICATORS"); repeat split; repeat constructor|].
  split; [intros l r [= <- _]; reflexivity|]. split; [discriminate|].
  split; [cbn [map x_cells ex_lso_text]; repeat (apply Forall2_cons; [lso_cell_ok|]); apply Forall2_nil|].
  split; [right; exists (lit "BEGIN_TETRA_REGION_INDICATORS"), [], (lit "END_TETRA_REGION_INDICATORS"); repeat split; repeat constructor|].
  split; [repeat constructor|]. split; [reflexivity|].
  split; [|split; [|repeat split]].
  - apply Forall2_cons; [|apply Forall2_cons; [|apply Forall2_nil]].
    + exists (lit "SURFACE the interface"), [map lit ["TFACE 1"; "KEYVERTICES 1 2 3"; "TRGL 1 2 3"]], (lit "SURFACE"), (lit "the interface").
      do 4 (split; [reflexivity|]). apply Forall2_cons; [lso_face_ok|apply Forall2_nil].
    + exists (lit "SURFACE sides"), [map lit ["TFACE 2"; "KEYVERTICES 1 2 4"; "TRGL 1 2 4"; "TRGL 2 3 4"]; map lit ["TFACE 3"; "KEYVERTICES 1 2 5"; "TRGL 5 2 1"]], (lit "SURFACE"), (lit "sides").
      do 4 (split; [reflexivity|]). repeat (apply Forall2_cons; [lso_face_ok|]). apply Forall2_nil.
  - repeat (apply Forall2_cons; [split; [reflexivity|]; do 2 eexists; reflexivity|]). apply Forall2_nil.
Qed.
Lemma declared_b (l : list (vertex ExNum)) ns : forallb (fun n => existsb (fun v => vx_number v =? n) l) ns = true -> Forall (declared l) ns.
Proof.
  intros H. apply Forall_forall. intros n Hn. rewrite forallb_forall in H. apply H in Hn. apply existsb_exists in Hn as (v & Hv & E).
  exists v. split; [assumption|lia].
Qed.
Example C105_example : exists m, read_lso ExNum (unlines ex_lso) = Ok m /\ i_title m = Some (lit "glued blocks") /\ i_nuv m = 5 /\
  horizons_are 0 [(lit "the interface", [[(1, 2, 3)]]); (lit "sides", [[(1, 2, 4); (2, 3, 4)]; [(5, 2, 1)]])] (i_horizons m) /\
  Forall2 (surface_is ex_lso_text) [(lit "the interface", [(1, 2, 3)]); (lit "sides", [(1, 2, 4); (2, 3, 4)]); (lit "sides", [(5, 2, 1)])] (i_surfs m) /\
  Forall2 (block_is ex_lso_text) [lit "low"; lit "high"] (i_blocks m).
Proof.
  apply (C105_solid ExNum ex_lso ex_lso_text).
  - lso_lines_ok.
  - exact C105_example_says.
  - split.
    + apply Forall_cons; [|apply Forall_cons; [|apply Forall_nil]]; apply declared_b; reflexivity.
    + apply Forall_cons; [|apply Forall_cons; [|apply Forall_nil]].
      * apply Forall_cons; [|apply Forall_nil]. apply Forall_cons; [|apply Forall_nil]. apply declared_b. reflexivity.
      * apply Forall_cons; [|apply Forall_cons; [|apply Forall_nil]].
        -- apply Forall_cons; [|apply Forall_cons; [|apply Forall_nil]]; apply declared_b; reflexivity.
        -- apply Forall_cons; [|apply Forall_nil]. apply declared_b. reflexivity.
  - repeat constructor; cbn; lia.
  - constructor.
  - split; [|repeat constructor; discriminate]. repeat constructor; cbn; intuition discriminate.
  - constructor.
  - now left.
Qed.
Example C105_example_blocks : match read_lso ExNum (unlines ex_lso) with
  | Ok m => map (fun r => (r_points r, r_uv r, r_tets r, map (fun e => (fst e, a_vals (snd e))) (r_vattrs r))) (i_blocks m)
            = [([(0, 0, 0); (1, 0, 0); (0, 1, 0); (0, 0, -5)], [0; 1; 2; 3], [(0, 1, 2, 3)], [(lit "porosity", [[10]; [20]; [30]; [40]])]);
               ([(0, 0, 0); (1, 0, 0); (0, 1, 0); (0, 0, 7)], [0; 1; 2; 4], [(0, 1, 2, 3)], [(lit "porosity", [[11]; [21]; [31]; [50]])])]
            /\ i_horizons m = [(lit "the interface", 0, 1); (lit "sides", 1, 3)]
  | _ => False end.
Proof. vm_compute. split; reflexivity. Qed.

(** The hypothesis [enough_cells] with a property of the tetrahedra. *)
Definition ex_lso_cells : list (cell ExNum) := map (fun k => mkCell (F := ExNum) (1, 2, 3, 4) (lit "b") [[k]]) [1; 2; 3; 4].
Example C105_example_enough : enough_cells (mkSolidText (F := ExNum) None [] [mkProperty (F := ExNum) (lit "volume") 1 0] [] [] ex_lso_cells [] [lit "b"]).
Proof.
  right. split; [repeat constructor; cbn; lia|]. intros name ns [<-|[]] Hn H. cbn [x_cells] in *.
  change (lenz (filter _ ex_lso_cells)) with 4. 
  assert (I : incl ns [1; 2; 3; 4]).
  { intros n Hi. apply H in Hi as (c & Hc & _ & Hi). cbn [ex_lso_cells map In] in Hc. 
    destruct Hc as [<-|[<-|[<-|[<-|[]]]]]; exact Hi. }
  apply NoDup_incl_length in I; [|assumption]. unfold lenz. cbn [List.length] in I. lia.
Qed.

(** The reader counts the copies as vertices of the file when it looks for the vertex a copy refers to, although only originals can be
    referred to: a file that declares an original vertex after a copy is read outside the list of originals. *)
Theorem C105_order_refuted :
  exists l1 l2 l3 l4 (v1 v2 v3 v4 : vertex ExNum) rest,
    original_line ExNum true [] l1 v1 /\ copy_line ExNum [] l2 1 v2 /\ original_line ExNum true [] l3 v3 /\ copy_line ExNum [] l4 3 v4 /\
    map vx_number [v1; v2; v3; v4] = [1; 2; 3; 4] /\ vx_point v2 = vx_point v1 /\ vx_point v4 = vx_point v3 /\
    read_lso ExNum (unlines (map lit ["GOCAD LightTSolid 1"; "HEADER {"; "}"] ++ [l1; l2; l3; l4] ++ rest)) = UB.
Proof.
  exists (lit "VRTX 1 0 0 0"), (lit "SHAREDVRTX 2 1"), (lit "VRTX 3 1 1 1"), (lit "SHAREDVRTX 4 3"),
    (mkVertex (F := ExNum) 1 (0, 0, 0) []), (mkVertex (F := ExNum) 2 (0, 0, 0) []), (mkVertex (F := ExNum) 3 (1, 1, 1) []), (mkVertex (F := ExNum) 4 (1, 1, 1) []),
    (map lit ["TETRA 1 2 3 4"; "# CTETRA a b c d e"; "MODEL"; "MODEL_REGION a +1"; "END"]).
  split; [lso_vertex_ok|]. split; [lso_copy_ok|]. split; [lso_vertex_ok|]. split; [lso_copy_ok|]. do 3 (split; [reflexivity|]).
  apply is_UB_ok. vm_compute. reflexivity.
Qed.
Print Assumptions C105_order_refuted.
