(** * Save then load of a .lso file: the whole file. *)
From Coq Require Import ZArith List Lia Bool Ascii String Permutation.
From Verif Require Import Base Text TextFacts GocadModel MeshModel TsModel Spec GocadFacts TsFacts LsoModel LsoFacts LsoRead LsoRound LsoFile.
Import ListNotations.
Local Open Scope string_scope.
Local Open Scope list_scope.
Local Open Scope Z_scope.

Lemma plain_line l : plain l -> is_line l.
Proof. unfold plain, is_line. rewrite Forall_forall. intros H Hi. specialize (H LF Hi eq_refl). discriminate. Qed.

(** ** Tetrahedra written *)
Section Tets.
Context {F : Num} (m : LModel F) (C : consistent m) (HN : Forall (fun l => l <> []) (l_uv m)).
Let N := lenz (l_uv m).
Context (fits : N + nb_others (l_uv m) < two32).
Variables (ps : list (point F)) (rws : list row) (atoms : list Z).
Hypothesis NUM : numbered m 0 N (l_uv m) ps rws atoms.

Definition cn (b : LBlock F) (v : Z) : Z := match corner_number rws b v with Ok n => n - 1 | _ => 0 end.
Definition qn (b : LBlock F) (t : quad) : quad := let '(x, y, z, w) := t in (cn b x, cn b y, cn b z, cn b w).
Lemma qn_list b t : quad_list (qn b t) = map (cn b) (quad_list t).
Proof. destruct t as [[[x y] z] w]. reflexivity. Qed.
Definition good_block (b : LBlock F) : Prop :=
  k_tets b <> [] /\ Forall (fun t => Forall (fun v => 0 <= v < lenz (k_points b)) (quad_list t)) (k_tets b).
Lemma cn_ok b v : In b (l_blocks m) -> 0 <= v < lenz (k_points b) ->
  corner_number rws b v = Ok (cn b v + 1) /\ 0 <= cn b v < N + nb_others (l_uv m).
Proof.
  intros Hb Hv. pose proof (cu_len m C) as L. rewrite Forall_forall in L. specialize (L b Hb).
  destruct (nthz_in_range (k_uv b) v) as [u Hu]; [unfold lenz in Hv; lia|].
  destruct (corner_total m C ps rws atoms NUM b v u Hb Hu) as [n E].
  destruct (corner_denotes m HN ps rws atoms NUM b v n E) as [u' [_ [_ R]]]. unfold cn. rewrite E.
  split; [f_equal; lia|fold N in R; lia].
Qed.
Lemma tetra_line_ok b t : In b (l_blocks m) -> Forall (fun v => 0 <= v < lenz (k_points b)) (quad_list t) ->
  tetra_line rws b t = Ok (tet_lines (qn b t, k_name b)) /\ quad_in (N + nb_others (l_uv m)) (qn b t).
Proof.
  intros Hb H. unfold quad_in. rewrite qn_list. destruct t as [[[x y] z] w]. cbn [quad_list map] in *.
  inversion_clear H as [|? ? Hx H']. inversion_clear H' as [|? ? Hy H]. inversion_clear H as [|? ? Hz H'].
  inversion_clear H' as [|? ? Hw _].
  destruct (cn_ok b x Hb Hx) as [Ex Rx]. destruct (cn_ok b y Hb Hy) as [Ey Ry].
  destruct (cn_ok b z Hb Hz) as [Ez Rz]. destruct (cn_ok b w Hb Hw) as [Ew Rw].
  unfold tetra_line. rewrite Ex, Ey, Ez, Ew. cbn [bind]. split; [reflexivity|].
  repeat (apply Forall_cons; [lia|]). constructor.
Qed.
Definition entries : list (quad * bytes) :=
  flat_map (fun b => map (fun t => (qn b t, k_name b)) (k_tets b)) (l_blocks m).
Lemma write_tetrahedra_ok : Forall good_block (l_blocks m) ->
  write_tetrahedra rws m = Ok (flat_map tet_lines entries)
  /\ Forall (fun e => quad_in (N + nb_others (l_uv m)) (fst e)) entries.
Proof.
  intros H. rewrite Forall_forall in H.
  assert (HT : forall b t, In b (l_blocks m) -> In t (k_tets b) ->
     tetra_line rws b t = Ok (tet_lines (qn b t, k_name b)) /\ quad_in (N + nb_others (l_uv m)) (qn b t)).
  { intros b t Hb Ht. apply tetra_line_ok; [assumption|]. destruct (H b Hb) as [_ HG]. rewrite Forall_forall in HG. now apply HG. }
  unfold write_tetrahedra. split.
  - rewrite (mapM_ok_map _ (fun b => map (fun t => tet_lines (qn b t, k_name b)) (k_tets b))).
    + cbn [bind]. f_equal. unfold entries. clear. induction (l_blocks m) as [|b l IH]; [reflexivity|].
      cbn [map List.concat flat_map]. rewrite concat_app, IH, flat_map_app. f_equal.
      clear. induction (k_tets b) as [|t r IH]; [reflexivity|]. cbn [map List.concat flat_map]. now rewrite IH.
    + intros b Hb. apply mapM_ok_map. intros t Ht. now apply HT.
  - unfold entries. apply Forall_forall. intros e He. apply in_flat_map in He. destruct He as [b [Hb He]].
    apply in_map_iff in He. destruct He as [t [<- Ht]]. cbn [fst]. now apply HT.
Qed.
Lemma entries_of b : NoDup (map k_name (l_blocks m)) -> In b (l_blocks m) -> block_tets entries (k_name b) = map (qn b) (k_tets b).
Proof.
  unfold block_tets, entries. generalize (l_blocks m). induction l as [|c l IH]; intros ND Hb; [inversion Hb|].
  cbn [map] in ND. inversion_clear ND as [|? ? N1 N2]. cbn [flat_map]. rewrite filter_app, map_app.
  assert (HA : forall x l0, k_name x = k_name b -> map fst (filter (fun t : quad * bytes => beq (snd t) (k_name b)) (map (fun t => (qn x t, k_name x)) l0)) = map (qn x) l0).
  { intros x l0 E. induction l0 as [|t r IHr]; [reflexivity|]. cbn [map filter snd]. rewrite E, beq_refl. cbn [map fst]. rewrite E in IHr. now rewrite IHr. }
  assert (HB : forall x l0, k_name x <> k_name b -> filter (fun t : quad * bytes => beq (snd t) (k_name b)) (map (fun t => (qn x t, k_name x)) l0) = []).
  { intros x l0 E. induction l0 as [|t r IHr]; [reflexivity|]. cbn [map filter snd]. apply beq_neq in E. now rewrite E. }
  destruct Hb as [->|Hb].
  - rewrite HA by reflexivity.
    assert (E : filter (fun t : quad * bytes => beq (snd t) (k_name b)) (flat_map (fun b0 => map (fun t => (qn b0 t, k_name b0)) (k_tets b0)) l) = []).
    { clear IH. induction l as [|c l IHl]; [reflexivity|]. cbn [flat_map]. rewrite filter_app. cbn [map] in N1, N2. inversion_clear N2.
      rewrite HB; [|intros E; apply N1; left; exact E]. cbn [app]. apply IHl; [intros Hi; apply N1; now right|assumption]. }
    rewrite E. cbn [map]. now rewrite app_nil_r.
  - rewrite HB; [|intros E; apply N1; rewrite E; now apply in_map]. cbn [map app]. now apply IH.
Qed.
End Tets.

(** ** The solid read *)
Section Solid.
Context {F : Num} (HF : num_ok F).
Notation np := (@empty_prop (num F)).
Lemma solid_written ps atoms c0 : lenz ps + lenz atoms < two32 -> c0 = lenz ps + 1 ->
  Forall (fun a => 1 <= a <= lenz ps) atoms ->
  exists new mp, Forall2 (fun a p => nthz (map (rp F) ps) (a - 1) = Some p) atoms new /\ lenz mp = lenz ps /\
  foldM (lso_vertex F default_crs np) (lso_vrtx_lines 0 ps ++ shared_lines c0 atoms) (mkSolidV [] [] [] [])
  = Ok (mkSolidV (map (rp F) ps ++ new) (rangez 0 (List.length ps) ++ map (fun a => a - 1) atoms) mp []).
Proof.
  intros Hf -> HA. pose proof (lenz_nonneg ps). pose proof (lenz_nonneg atoms).
  change (mkSolidV [] [] [] []) with (@start_solid F []). rewrite foldM_app. rewrite (read_vrtx_lines HF ps [] 0 (Z.le_refl 0) eq_refl).
  cbn [bind app]. destruct (read_shared_lines (F:=F) atoms (lenz ps + 1) (start_solid (map (rp F) ps)) (lenz ps)) as [new [mp [H1 [H2 H3]]]];
    try assumption; try lia.
  - unfold start_solid. cbn [sv_map]. rewrite lenz_map. unfold lenz. rewrite rangez_length, map_length. reflexivity.
  - unfold start_solid. cbn [sv_points]. rewrite lenz_map. lia.
  - exists new, mp. split; [assumption|]. split; [assumption|]. rewrite H3. unfold start_solid. cbn [sv_points sv_uid sv_vals].
    now rewrite map_length.
Qed.
Lemma nthz_app_inv {A} (a b : list A) i x : nthz (a ++ b) i = Some x ->
  nthz a i = Some x \/ exists j, i = lenz a + j /\ 0 <= j /\ nthz b j = Some x.
Proof.
  intros H. pose proof (nthz_range _ _ _ H) as R. rewrite lenz_app in R. destruct (Z.lt_ge_cases i (lenz a)) as [L|L].
  - left. destruct (nthz_in_range a i) as [y Hy]; [unfold lenz in *; lia|]. rewrite (nthz_app_l a b i y Hy) in H. congruence.
  - right. exists (i - lenz a). split; [lia|]. split; [lia|]. rewrite <- nthz_app_r with (a := a) by lia.
    now replace (lenz a + (i - lenz a)) with i by lia.
Qed.
Lemma Forall2_nthz {A B} (R : A -> B -> Prop) a b : Forall2 R a b -> forall i x, nthz a i = Some x -> exists y, nthz b i = Some y /\ R x y.
Proof.
  induction 1 as [|x0 y0 a b H0 H IH]; intros i x Hx; [apply nthz_in in Hx; destruct Hx|].
  rewrite nthz_cons in Hx. rewrite nthz_cons. destruct (i =? 0); [|now apply IH]. exists y0. split; [reflexivity|]. assert (x = x0) as -> by congruence. assumption.
Qed.
(** The point of a vertex is the point of the VRTX of its unique vertex. *)
Lemma solid_points ps (new : list (point F)) atoms x u :
  Forall2 (fun a p => nthz (map (rp F) ps) (a - 1) = Some p) atoms new ->
  nthz (rangez 0 (List.length ps) ++ map (fun a => a - 1) atoms) x = Some u ->
  exists p, nthz ps u = Some p /\ nthz (map (rp F) ps ++ new) x = Some (rp F p).
Proof.
  intros H Hx. apply nthz_app_inv in Hx. destruct Hx as [Hx|[j [-> [Hj Hx]]]].
  - pose proof (nthz_range _ _ _ Hx) as R. unfold lenz in R. rewrite rangez_length in R. rewrite nthz_rangez in Hx by assumption.
    assert (u = x) as -> by (assert (Some (0 + x) = Some u) by assumption; assert (0 + x = u) by congruence; lia).
    destruct (nthz_in_range ps x R) as [p Hp]. exists p. split; [assumption|]. apply nthz_app_l. now rewrite nthz_map, Hp.
  - rewrite nthz_map in Hx. destruct (nthz atoms j) as [a|] eqn:Ea; [|discriminate]. cbn [option_map] in Hx.
    assert (u = a - 1) as -> by congruence. destruct (Forall2_nthz _ _ _ H j a Ea) as [p' [Hp' Hq]].
    rewrite nthz_map in Hq. destruct (nthz ps (a - 1)) as [p|] eqn:Ep; [|discriminate]. exists p. split; [reflexivity|].
    replace (lenz (rangez 0 (List.length ps)) + j) with (lenz (map (rp F) ps) + j) by (unfold lenz; now rewrite rangez_length, map_length).
    rewrite nthz_app_r by assumption. rewrite Hp'. cbn [option_map] in Hq. congruence.
Qed.
Lemma exists_list {A B} (P : A -> B -> Prop) (l : list B) : (forall x, In x l -> exists v, P v x) -> exists o, Forall2 P o l.
Proof.
  induction l as [|x l IH]; intros H; [exists []; constructor|]. destruct (H x (or_introl eq_refl)) as [v Hv].
  destruct IH as [o Ho]; [intros y Hy; apply H; now right|]. exists (v :: o). now constructor.
Qed.
End Solid.

Lemma numbered_atoms {F} (m : LModel F) v nb uvs ps rws atoms : numbered m v nb uvs ps rws atoms ->
  Forall (fun a => v + 1 <= a <= v + lenz uvs) atoms.
Proof.
  induction 1 as [|v nb mvs rr mv0 others b p ps rws atoms HS Hb Hp N IH]; [constructor|]. rewrite lenz_cons. pose proof (lenz_nonneg rr).
  apply Forall_app. split.
  - apply Forall_forall. intros a Ha. apply repeat_spec in Ha. lia.
  - eapply Forall_impl; [|exact IH]. intros a Ha. cbn beta in Ha. lia.
Qed.

Lemma rangez_pred z k : map (fun a => a - 1) (rangez (z + 1) k) = rangez z k.
Proof. revert z. induction k as [|k IH]; intros z; [reflexivity|]. cbn [rangez map]. rewrite IH. f_equal. lia. Qed.

(** ** What is loaded *)
Definition surface_from {F} (m : LModel F) (name : bytes) (T : list tri) (h : LSurfR F) : Prop :=
  h_name h = name /\ NoDup (h_uv h) /\ (forall u, In u (h_uv h) <-> In u (flat_map tri_list T)) /\
  Forall2 (fun u p' => exists p, at_uv m u p /\ reread_point F p p') (h_uv h) (h_points h) /\
  Forall2 (fun t t' => Forall2 (fun u i => nthz (h_uv h) i = Some u) (tri_list t) (tri_list t')) T (h_tris h).
Definition block_like {F} (b : LBlock F) (r : LBlockR F) : Prop :=
  r_name r = k_name b /\ exists order, NoDup order /\
   (forall v, In v order <-> In v (flat_map quad_list (k_tets b))) /\
   Forall2 (fun v p' => exists p, nthz (k_points b) v = Some p /\ reread_point F p p') order (r_points r) /\
   Forall2 (fun v u => nthz (k_uv b) v = Some u) order (r_uv r) /\
   Forall2 (fun t t' => Forall2 (fun v i => nthz order i = Some v) (quad_list t) (quad_list t')) (k_tets b) (r_tets r).

Section Loaded.
Context {F : Num} (HF : num_ok F) (m : LModel F) (C : consistent m) (CO : colocated m) (HN : Forall (fun l => l <> []) (l_uv m)).
Notation np := (@empty_prop (num F)).
Let N := lenz (l_uv m).
Context (fits : N + nb_others (l_uv m) < two32).
Variables (ps : list (point F)) (rws : list row) (atoms : list Z).
Hypothesis NUM : numbered m 0 N (l_uv m) ps rws atoms.
Variables (new : list (point F)) (mp : list (list Z)).
Hypothesis HNEW : Forall2 (fun a p => nthz (map (rp F) ps) (a - 1) = Some p) atoms new.
Hypothesis HMP : lenz mp = lenz ps.
Let sv : SolidV F := mkSolidV (map (rp F) ps ++ new) (rangez 0 (List.length ps) ++ map (fun a => a - 1) atoms) mp [].
Variable tets : list (quad * bytes).

Lemma lenz_ps : lenz ps = N.
Proof. destruct (numbered_lens _ _ _ _ _ _ _ NUM) as [L _]. unfold N, lenz. now rewrite L. Qed.
Lemma uid_small u : 0 <= u < N -> nthz (sv_uid sv) u = Some u.
Proof.
  intros H. cbn [sv_uid sv]. apply nthz_app_l. pose proof lenz_ps as L. unfold lenz at 1 in L. rewrite nthz_rangez by lia. f_equal.
Qed.
Lemma uid_known x u : nthz (sv_uid sv) x = Some u -> exists p, at_uv m u p /\ nthz (sv_points sv) x = Some (rp F p).
Proof.
  intros H. destruct (solid_points ps new atoms x u HNEW H) as [p [Hp Hx]]. exists p. split; [|assumption].
  exact (vrtx_point_at m C ps rws atoms NUM u p Hp).
Qed.
Lemma known_small u : 0 <= u < N -> known sv u.
Proof. intros H. pose proof (uid_small u H) as E. destruct (uid_known u u E) as [p [_ Hp]]. exists (rp F p), u. auto. Qed.

Lemma load_face_ok name st T : Forall (fun t => Forall (fun v => 0 <= v < N) (tri_list t)) T ->
  exists st' h, load_face sv tets name st T = Ok st' /\ ss_surfs st' = ss_surfs st ++ [h] /\ surface_from m name T h.
Proof.
  intros HT. unfold load_face.
  destruct (tri_steps_spec sv tets (lenz (ss_surfs st)) T (mkTriSt no_vertex [] (ss_facets st) (ss_inspect st))) as [ts [T' [E [[U1 U2 U3] [_ [ET [HA HW]]]]]]].
  - apply no_vertex_ok.
  - eapply Forall_impl; [|exact HT]. intros t Ht. cbn beta in Ht. eapply Forall_impl; [|exact Ht]. intros u. apply known_small.
  - eapply Forall_impl; [|exact HT]. intros t Ht. cbn beta in Ht. eapply Forall_impl; [|exact Ht]. intros u Hu. cbn [sv_map sv]. rewrite HMP, lenz_ps. exact Hu.
  - rewrite E. cbn [bind]. eexists _, _. split; [reflexivity|]. cbn [ss_surfs]. split; [reflexivity|].
    cbn [ts_tris ts_used us_seen no_vertex] in ET, HW. cbn [app] in ET.
    assert (HS : Forall (fun u => 0 <= u < N) (us_seen (ts_used ts))).
    { apply Forall_forall. intros u Hu. apply HW in Hu. destruct Hu as [[]|Hu]. apply in_flat_map in Hu. destruct Hu as [t [Ht Hu]].
      rewrite Forall_forall in HT. specialize (HT t Ht). rewrite Forall_forall in HT. now apply HT. }
    assert (EU : us_uv (ts_used ts) = us_seen (ts_used ts)).
    { assert (mapM (idxz (sv_uid sv)) (us_seen (ts_used ts)) = Ok (us_seen (ts_used ts))) as EE; [|congruence].
      clear -HS NUM. apply mapM_ok. induction HS as [|u l Hu HS IH]; constructor; [|assumption]. apply idxz_ok. now apply uid_small. }
    unfold surface_from. cbn [h_name h_uv h_points h_tris]. rewrite EU. split; [reflexivity|]. split; [assumption|]. split.
    + intros u. rewrite HW. cbn [In]. tauto.
    + split; [|rewrite ET; exact HA]. apply mapM_ok in U2. clear -U2 HS NUM HNEW C HF. revert HS U2.
      generalize (us_points (ts_used ts)). induction (us_seen (ts_used ts)) as [|u l IH]; intros qs HS U2; inversion_clear U2; constructor.
      * inversion_clear HS as [|? ? Hu _]. apply idxz_ok in H. destruct (uid_known u u (uid_small u Hu)) as [p [Hp Hq]].
        assert (y = rp F p) as -> by congruence. exists p. split; [assumption|now apply reread_rp].
      * apply IH; [now inversion HS|assumption].
Qed.
Lemma load_faces_ok name Ts : forall st, Forall (Forall (fun t => Forall (fun v => 0 <= v < N) (tri_list t))) Ts ->
  exists st' hs, foldM (load_face sv tets name) Ts st = Ok st' /\ ss_surfs st' = ss_surfs st ++ hs /\ Forall2 (surface_from m name) Ts hs.
Proof.
  induction Ts as [|T Ts IH]; intros st H.
  - exists st, []. split; [reflexivity|]. rewrite app_nil_r. split; [reflexivity|constructor].
  - inversion_clear H as [|? ? HT HTs]. cbn [foldM]. destruct (load_face_ok name st T HT) as [st1 [h [E1 [S1 L1]]]]. rewrite E1. cbn [bind].
    destruct (IH st1 HTs) as [st2 [hs [E2 [S2 L2]]]]. exists st2, (h :: hs). rewrite E2. split; [reflexivity|]. rewrite S2, S1, <- app_assoc.
    split; [reflexivity|]. now constructor.
Qed.
Lemma surface_from_name name Ts hs : Forall2 (surface_from m name) Ts hs -> Forall (fun h => h_name h = name) hs.
Proof. induction 1 as [|T h Ts hs [H _] _ IH]; constructor; assumption. Qed.
Lemma load_sects_ok secs : forall st hors,
  Forall (fun e => Forall (fun f => Forall (fun t => Forall (fun v => 0 <= v < N) (tri_list t)) (snd f)) (snd e)) secs ->
  exists st' hs H, foldM (load_sect sv tets) secs (st, hors) = Ok (st', hors ++ H) /\ ss_surfs st' = ss_surfs st ++ hs
   /\ Forall2 (fun e h => surface_from m (normalise (fst e)) (snd e) h) (named_faces secs) hs
   /\ (forall j h, nthz hs j = Some h -> exists a b, In (h_name h, a, b) H /\ a <= lenz (ss_surfs st) + j < b).
Proof.
  induction secs as [|[n fs] secs IH]; intros st hors HS.
  - exists st, [], []. rewrite !app_nil_r. split; [reflexivity|]. split; [reflexivity|]. split; [constructor|].
    intros j h H. apply nthz_in in H. destruct H.
  - inversion_clear HS as [|? ? HS0 HS1]. cbn [fst snd] in HS0. cbn [foldM]. unfold load_sect at 1. cbn [fst snd].
    destruct (load_faces_ok (normalise n) (map snd fs) st) as [st1 [h1 [E1 [S1 L1]]]]; [now apply Forall_map|].
    rewrite E1. cbn [bind].
    destruct (IH st1 (hors ++ [(normalise n, lenz (ss_surfs st), lenz (ss_surfs st1))]) HS1) as [st2 [h2 [H [E2 [S2 [L2 K2]]]]]].
    exists st2, (h1 ++ h2), ((normalise n, lenz (ss_surfs st), lenz (ss_surfs st1)) :: H). rewrite E2, <- app_assoc. split; [reflexivity|].
    rewrite S2, S1, <- app_assoc. split; [reflexivity|]. split.
    + unfold named_faces in *. cbn [flat_map fst snd]. apply Forall2_app; [|assumption].
      clear -L1. revert h1 L1. induction fs as [|f fs IH]; intros h1 L1; inversion_clear L1; constructor; auto.
    + intros j h Hj. pose proof (surface_from_name _ _ _ L1) as HNM. apply nthz_app_inv in Hj. destruct Hj as [Hj|[k [-> [Hk Hj]]]].
      * exists (lenz (ss_surfs st)), (lenz (ss_surfs st1)). rewrite S1, lenz_app. pose proof (nthz_range _ _ _ Hj).
        rewrite Forall_forall in HNM. rewrite (HNM h (nthz_in _ _ _ Hj)). split; [now left|lia].
      * destruct (K2 k h Hj) as [a [b [Hi Hr]]]. rewrite S1, lenz_app in Hr. exists a, b. split; [now right|lia].
Qed.

(** Blocks *)
Lemma build_block_ok st ss b : In b (l_blocks m) -> good_block b -> st_tets st = entries m rws -> NoDup (map k_name (l_blocks m)) ->
  exists r bad, build_block F np np sv st ss (k_name b) = Ok (r, bad) /\ block_like b r /\ r_vattrs r = [] /\ r_tattrs r = []
    /\ r_bounds r = related F (ss_facets ss) (map (qn rws b) (k_tets b)) (ss_surfs ss) 1
    /\ r_internals r = related F (ss_facets ss) (map (qn rws b) (k_tets b)) (ss_surfs ss) 2.
Proof.
  intros Hb [_ GB] EE ND. unfold build_block. rewrite EE, (entries_of m rws b ND Hb).
  assert (HC : forall v, In v (flat_map quad_list (k_tets b)) -> 0 <= v < lenz (k_points b)).
  { intros v Hv. apply in_flat_map in Hv. destruct Hv as [t [Ht Hv]]. rewrite Forall_forall in GB. specialize (GB t Ht).
    rewrite Forall_forall in GB. now apply GB. }
  assert (HU : forall v, 0 <= v < lenz (k_points b) -> exists u, nthz (k_uv b) v = Some u /\ nthz (sv_uid sv) (cn rws b v) = Some u
               /\ exists p, nthz (k_points b) v = Some p /\ nthz (sv_points sv) (cn rws b v) = Some (rp F p)).
  { intros v Hv. destruct (cn_ok m C HN ps rws atoms NUM b v Hb Hv) as [E R].
    destruct (corner_denotes m HN ps rws atoms NUM b v _ E) as [u [Hu [HD _]]]. exists u. split; [assumption|].
    replace (cn rws b v + 1 - 1) with (cn rws b v) in HD by lia.
    assert (HX : nthz (sv_uid sv) (cn rws b v) = Some u).
    { cbn [sv_uid sv]. replace (rangez 0 (List.length ps) ++ map (fun a => a - 1) atoms)
        with (map (fun a => a - 1) (rangez 1 (List.length (l_uv m)) ++ atoms)).
      - rewrite nthz_map, HD. cbn [option_map]. f_equal. lia.
      - rewrite map_app. f_equal. destruct (numbered_lens _ _ _ _ _ _ _ NUM) as [-> _].
        apply (rangez_pred 0). }
    split; [assumption|]. destruct (uid_known _ _ HX) as [p [Hp Hq]]. destruct (consistent_point m b v u C Hb Hu) as [q Hq'].
    exists q. split; [assumption|]. rewrite Hq. f_equal. f_equal. apply (CO u); [assumption|]. exists b, v. auto. }
  destruct (use_tets_spec sv (map (qn rws b) (k_tets b)) no_vertex) as [us [ts' [E [[U1 U2 U3] [_ [HT HW]]]]]].
  - apply no_vertex_ok.
  - apply Forall_map, Forall_forall. intros t Ht. rewrite qn_list. apply Forall_map, Forall_forall. intros v Hv.
    destruct (HU v) as [u [_ [H1 [p [_ H2]]]]]; [apply HC; apply in_flat_map; eauto|]. exists (rp F p), u. auto.
  - rewrite E. cbn [bind p_names p_esizes p_ndv empty_prop make_attributes]. eexists _, _. split; [reflexivity|].
    cbn [r_vattrs r_tattrs r_bounds r_internals]. split; [|repeat split; reflexivity].
    assert (HX : forall x, In x (us_seen us) <-> exists v, In v (flat_map quad_list (k_tets b)) /\ cn rws b v = x).
    { intros x. rewrite HW. cbn [no_vertex us_seen In].
      replace (flat_map quad_list (map (qn rws b) (k_tets b))) with (map (cn rws b) (flat_map quad_list (k_tets b))).
      - rewrite in_map_iff. split; [intros [[]|[v [H1 H2]]]|intros [v [H1 H2]]; right]; eauto.
      - clear. induction (k_tets b) as [|t l IH]; [reflexivity|]. cbn [flat_map map]. rewrite map_app, IH, qn_list. reflexivity. }
    assert (HINJ : forall v w, In v (flat_map quad_list (k_tets b)) -> In w (flat_map quad_list (k_tets b)) -> cn rws b v = cn rws b w -> v = w).
    { intros v w Hv Hw Evw. destruct (cn_ok m C HN ps rws atoms NUM b v Hb (HC v Hv)) as [Ev _].
      destruct (cn_ok m C HN ps rws atoms NUM b w Hb (HC w Hw)) as [Ew _]. rewrite <- Evw in Ew.
      pose proof (corner_inj m ps rws atoms NUM b v b w _ Ev Ew) as EI. congruence. }
    destruct (exists_list (fun v x => In v (flat_map quad_list (k_tets b)) /\ cn rws b v = x) (us_seen us)) as [order HO];
      [intros x Hx; now apply HX|].
    unfold block_like. cbn [r_name r_points r_uv r_tets]. split; [reflexivity|]. exists order.
    assert (EO : us_seen us = map (cn rws b) order) by (clear -HO; induction HO as [|v x o l [_ <-] _ IH]; [reflexivity|cbn [map]; now rewrite IH]).
    assert (IO : forall v, In v order -> In v (flat_map quad_list (k_tets b))).
    { clear -HO. induction HO as [|v x o l [Hv _] _ IH]; [intros ? []|]. intros w [<-|Hw]; auto. }
    split; [rewrite EO in U1; eapply NoDup_map_inv; exact U1|]. split.
    + intros v. split; [apply IO|]. intros Hv. assert (Hi : In (cn rws b v) (us_seen us)) by (apply HX; eauto).
      rewrite EO in Hi. apply in_map_iff in Hi. destruct Hi as [w [Ew Hw]]. rewrite (HINJ v w); auto.
    + apply mapM_ok in U2, U3. split; [|split].
      * clear -U2 HU IO EO HC HF. rewrite EO in U2. clear EO. revert U2. generalize (us_points us). induction order as [|v o IH]; intros qs U2; inversion_clear U2; constructor.
        { apply idxz_ok in H. destruct (HU v) as [u [_ [_ [p [H1 H2]]]]]; [apply HC, IO; now left|]. exists p. split; [assumption|].
          assert (y = rp F p) as -> by congruence. now apply reread_rp. }
        { apply IH; [intros w Hw; apply IO; now right|assumption]. }
      * clear -U3 HU IO EO HC. rewrite EO in U3. clear EO. revert U3. generalize (us_uv us). induction order as [|v o IH]; intros qs U3; inversion_clear U3; constructor.
        { apply idxz_ok in H. destruct (HU v) as [u [K0 [K1 _]]]; [apply HC, IO; now left|]. congruence. }
        { apply IH; [intros w Hw; apply IO; now right|assumption]. }
      * assert (HP : forall i v, In v (flat_map quad_list (k_tets b)) -> nthz (us_seen us) i = Some (cn rws b v) -> nthz order i = Some v).
        { intros i v Hv Hi. rewrite EO, nthz_map in Hi. destruct (nthz order i) as [w|] eqn:Ew; [|discriminate]. cbn [option_map] in Hi.
          f_equal. symmetry. apply HINJ; [assumption|apply IO; now apply nthz_in in Ew|congruence]. }
        clear -HT HP. revert ts' HT. induction (k_tets b) as [|t l IH]; intros ts' HT; inversion_clear HT; constructor.
        { unfold tet_at in H. rewrite qn_list in H. assert (HQ : forall v, In v (quad_list t) -> In v (flat_map quad_list (t :: l))) by (intros; apply in_flat_map; exists t; split; [now left|assumption]).
          revert H HQ. generalize (quad_list t) (quad_list y). induction l0 as [|v l0 IHl]; intros l1 H HQ; inversion_clear H; constructor.
          - apply HP; [apply HQ; now left|assumption].
          - apply IHl; [assumption|]. intros; apply HQ; now right. }
        { apply IH; [|assumption]. intros i v Hv. apply HP. cbn [flat_map]. apply in_or_app. now right. }
Qed.
Lemma build_blocks_ok st ss bs : (forall b, In b bs -> In b (l_blocks m) /\ good_block b) ->
  st_tets st = entries m rws -> NoDup (map k_name (l_blocks m)) ->
  exists rs bad, build_blocks sv st ss (map k_name bs) = Ok (rs, bad) /\
   Forall2 (fun b r => block_like b r /\ r_vattrs r = [] /\ r_tattrs r = []
     /\ r_bounds r = related F (ss_facets ss) (map (qn rws b) (k_tets b)) (ss_surfs ss) 1
     /\ r_internals r = related F (ss_facets ss) (map (qn rws b) (k_tets b)) (ss_surfs ss) 2) bs rs.
Proof.
  intros HB EE ND. induction bs as [|b bs IH]; [eexists _, _; split; [reflexivity|constructor]|].
  destruct (HB b (or_introl eq_refl)) as [H1 H2]. destruct (build_block_ok st ss b H1 H2 EE ND) as [r [bad [E HR]]].
  destruct IH as [rs [bad' [E' HRS]]]; [intros; apply HB; now right|]. cbn [map build_blocks]. rewrite E. cbn [bind]. rewrite E'. cbn [bind].
  eexists _, _. split; [reflexivity|]. constructor; assumption.
Qed.
End Loaded.
