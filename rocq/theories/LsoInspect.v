(** * When a loaded .lso file needs an inspection. *)
From Coq Require Import ZArith List Lia Bool Ascii String Permutation.
From Verif Require Import Base Text TextFacts GocadModel MeshModel TsModel Spec GocadFacts TsFacts LsoModel LsoFacts LsoRead LsoRound LsoFile LsoWhole LsoTrip StreamFacts LsoRel LsoCount.
Import ListNotations.
Local Open Scope string_scope.
Local Open Scope list_scope.
Local Open Scope Z_scope.

Section Inspect.
Context {F : Num} (sv : SolidV F) (SI : solid_inv sv) (OR : ordered sv).
Variable tets : list (quad * bytes).
Let facets := flat_map facets_of (map fst tets).
Context (TI : Forall (fun e => quad_in (lenz (sv_points sv)) (fst e)) tets).

(** No tetrahedron has a facet with the corners [t]. *)
Definition loose (t : tri) : bool := negb (existsb (fun g => same_cornersb (corners_uv (sv_uid sv) g) t) facets).
Lemma trgl_inspect s fm0 st line st' i0 : tri_inv sv tets s fm0 st -> lso_trgl F sv tets s st line = Ok st' ->
  ts_inspect st = i0 || existsb loose (map (corners_uv (us_uv (ts_used st))) (ts_tris st)) ->
  ts_inspect st' = i0 || existsb loose (map (corners_uv (us_uv (ts_used st'))) (ts_tris st')).
Proof.
  intros [U T _] E HI. unfold lso_trgl in E.
  apply bind_ok in E. destruct E as [a [_ E]]. apply bind_ok in E. destruct E as [[us1 ia] [E1 E]].
  apply bind_ok in E. destruct E as [b [_ E]]. apply bind_ok in E. destruct E as [[us2 ib] [E2 E]].
  apply bind_ok in E. destruct E as [c [_ E]]. apply bind_ok in E. destruct E as [[us3 ic] [E3 E]].
  apply bind_ok in E. destruct E as [fs [Ef E]].
  destruct (use_vertex_inv _ _ _ _ _ U E1) as [_ [U1 [G1 I1]]]. destruct (use_vertex_inv _ _ _ _ _ U1 E2) as [_ [U2 [G2 I2]]].
  destruct (use_vertex_inv _ _ _ _ _ U2 E3) as [_ [U3 [G3 I3]]].
  destruct (facets_from_ok sv SI tets TI _ _ Ef) as [HR HFS]. cbn [tri_list] in HR. inversion_clear HR as [|? ? Ra H']. inversion_clear H' as [|? ? Rb H].
  inversion_clear H as [|? ? Rc _].
  assert (G : grows (ts_used st) us3) by (intros i v Hv; auto).
  pose proof (G2 _ _ I1) as I1'. pose proof (G3 _ _ I1') as I1''. pose proof (G3 _ _ I2) as I2'.
  assert (EC : corners_uv (us_uv us3) (ia, ib, ic) = (a, b, c)).
  { cbn [corners_uv]. rewrite (used_uv sv us3 ia a), (used_uv sv us3 ib b), (used_uv sv us3 ic c) by assumption. now rewrite !(ordered_uid sv OR). }
  assert (EO : map (corners_uv (us_uv us3)) (ts_tris st) = map (corners_uv (us_uv (ts_used st))) (ts_tris st)).
  { apply map_ext_in. intros [[x y] z] Ht. rewrite Forall_forall in T. specialize (T _ Ht). cbn [tri_list] in T.
    inversion_clear T as [|? ? Tx H']. inversion_clear H' as [|? ? Ty H]. inversion_clear H as [|? ? Tz _]. cbn [corners_uv].
    now rewrite !(uv_grows sv (ts_used st) us3) by assumption. }
  match type of E with Ok ?x = _ => assert (st' = x) as -> by congruence end. clear E.
  cbn [ts_used ts_tris ts_inspect]. rewrite map_app, EO, existsb_app, HI. cbn [map existsb]. rewrite EC, orb_false_r, <- orb_assoc. do 2 f_equal.
  unfold loose. destruct (existsb (fun g => same_cornersb (corners_uv (sv_uid sv) g) (a, b, c)) facets) eqn:EX; cbn [negb].
  - apply existsb_exists in EX. destruct EX as [g [Hg EX]]. apply same_cornersb_ok in EX. assert (Hi : In (sort3 g) fs) by (apply HFS; exists g; auto).
    destruct fs; [destruct Hi|reflexivity].
  - destruct fs as [|f fs]; [reflexivity|]. destruct (proj1 (HFS f) (or_introl eq_refl)) as [g [Hg [_ HS]]]. apply same_cornersb_ok in HS.
    assert (existsb (fun g => same_cornersb (corners_uv (sv_uid sv) g) (a, b, c)) facets = true) by (apply existsb_exists; eauto). congruence.
Qed.
Lemma triangles_inspect s fm0 i0 ls : forall st line b st' l' s', tri_inv sv tets s fm0 st -> lso_triangles F sv tets s st line b ls = Ok (st', l', s') ->
  ts_inspect st = i0 || existsb loose (map (corners_uv (us_uv (ts_used st))) (ts_tris st)) ->
  ts_inspect st' = i0 || existsb loose (map (corners_uv (us_uv (ts_used st'))) (ts_tris st')).
Proof.
  induction ls as [|l ls IH]; intros st line b st' l' s' H E HI; cbn [lso_triangles] in E; [assert (st = st') as <- by congruence; assumption|].
  destruct (starts_with l "TRGL"); [|assert (st = st') as <- by congruence; assumption]. apply bind_ok in E. destruct E as [st1 [E1 E]].
  eapply IH; [|exact E|]; [eapply trgl_inv; eassumption|]. eapply trgl_inspect; eassumption.
Qed.
Definition loose_surf (h : LSurfR F) : bool := existsb loose (tris_uv h).
Lemma tfaces_inspect fuel name : forall ss line s ss' l' s', lso_tfaces F fuel sv tets name ss line s = Ok (ss', l', s') ->
  ss_inspect ss = existsb loose_surf (ss_surfs ss) -> ss_inspect ss' = existsb loose_surf (ss_surfs ss').
Proof.
  induction fuel as [|fuel IH]; intros ss line s ss' l' s' E H; [discriminate|]. cbn [lso_tfaces] in E.
  destruct (starts_with line "TFACE"); [|assert (ss = ss') as <- by congruence; assumption]. destruct (getline line s) as [[g line1] s1]. apply bind_ok in E.
  destruct E as [[[ts line2] s2] [E1 E]]. eapply IH; [exact E|]. clear E IH. cbn [ss_inspect ss_surfs].
  apply triangles_inspect with (fm0 := ss_facets ss) (i0 := ss_inspect ss) in E1.
  - rewrite E1, H, existsb_app. cbn [existsb]. rewrite orb_false_r. reflexivity.
  - split; cbn [ts_used ts_tris ts_facets].
    + apply no_vertex_ok.
    + constructor.
    + exists []. split; [reflexivity|]. split; [constructor|]. split; [intros ? []|intros ? ? []].
  - cbn [ts_inspect ts_used ts_tris map existsb]. now rewrite orb_false_r.
Qed.
Lemma surfaces_inspect fuel : forall ss hs line s ss' hs' l' s', lso_surfaces F fuel sv tets ss hs line s = Ok (ss', hs', l', s') ->
  ss_inspect ss = existsb loose_surf (ss_surfs ss) -> ss_inspect ss' = existsb loose_surf (ss_surfs ss').
Proof.
  induction fuel as [|fuel IH]; intros ss hs line s ss' hs' l' s' E H; [discriminate|]. cbn [lso_surfaces] in E.
  destruct (starts_with line "SURFACE"); [|assert (ss = ss') as <- by congruence; assumption]. destruct (getline line s) as [[g line1] s1]. apply bind_ok in E.
  destruct E as [[[st line2] s2] [E1 E]]. eapply IH; [exact E|]. eapply tfaces_inspect; eassumption.
Qed.
End Inspect.

Section FileInspect.
Context {F : Num}.
(** The count of facets of block [r] on surface [h] is that of no relation. *)
Definition bad_count (r : LBlockR F) (h : LSurfR F) : Prop :=
  0 < count_on r h /\ count_on r h / lenz (h_tris h) <> 1 /\ count_on r h / lenz (h_tris h) <> 2.
Lemma blocks_bad vp tp fuel : forall sv st ss line s rs bad, lso_blocks F vp tp fuel sv st ss line s = Ok (rs, bad) ->
  exists bads, Forall2 (fun r bd => exists name, build_block F vp tp sv st ss name = Ok (r, bd)) rs bads /\ bad = existsb (fun b => b) bads.
Proof.
  induction fuel as [|fuel IH]; intros sv st ss line s rs bad E; [discriminate|]. cbn [lso_blocks] in E.
  destruct (starts_with line "MODEL_REGION"); [|assert (rs = [] /\ bad = false) as [-> ->] by (split; congruence); exists []; split; [constructor|reflexivity]].
  apply bind_ok in E. destruct E as [name [_ E]]. apply bind_ok in E. destruct E as [[r bd] [Eb E]].
  destruct (getline line s) as [[g l1] s1]. apply bind_ok in E. destruct E as [[rs' bad'] [E' E]].
  assert (rs = r :: rs' /\ bad = bd || bad') as [-> ->] by (split; congruence). destruct (IH _ _ _ _ _ _ _ E') as [bads [H ->]].
  exists (bd :: bads). split; [constructor; eauto|reflexivity].
Qed.
Lemma not_conformal_ok fm ts (surfs : list (LSurfR F)) : not_conformal F fm ts surfs = true <->
  exists k h, nthz surfs k = Some h /\ 0 < facets_on fm ts k /\ facets_on fm ts k / lenz (h_tris h) <> 1 /\ facets_on fm ts k / lenz (h_tris h) <> 2.
Proof.
  unfold not_conformal. rewrite existsb_exists. split.
  - intros [[k h] [Hi H]]. cbn [fst snd] in H. apply in_indexed in Hi. exists k, h. split; [assumption|]. unfold relation_count in H.
    apply andb_true_iff in H. destruct H as [H1 H2]. apply Z.ltb_lt in H1. apply negb_true_iff, orb_false_iff in H2. destruct H2 as [H2 H3].
    apply Z.eqb_neq in H2, H3. auto.
  - intros [k [h [Hi [H1 [H2 H3]]]]]. exists (k, h). split; [now apply in_indexed|]. cbn [fst snd]. unfold relation_count.
    apply andb_true_iff. split; [now apply Z.ltb_lt|]. apply negb_true_iff, orb_false_iff. split; now apply Z.eqb_neq.
Qed.
(** [T]: the facets of the tetrahedra of the file, by the unique vertices of their corners, and the name of their block. *)
Lemma lso_inspect text (m' : LsoIn F) : copies_last (pending (open_text text)) -> read_lso F text = Ok m' -> apart (i_surfs m') ->
  exists T : list (list tri * bytes),
    Forall (fun r => facets_uv r = flat_map fst (filter (fun e => beq (snd e) (r_name r)) T)) (i_blocks m') /\
    (i_inspect m' = true <->
      (exists h t, In h (i_surfs m') /\ In t (tris_uv h) /\ forall e f, In e T -> In f (fst e) -> ~ same_corners f t) \/
      (exists r h, In r (i_blocks m') /\ In h (i_surfs m') /\ bad_count r h)).
Proof.
  intros CL E AP. unfold read_lso in E. destruct (goto_if _ (open_text text)) as [[l0|] s0] eqn:E0; [|discriminate].
  apply goto_if_suffix in E0. apply suffix_tl in E0.
  apply bind_ok in E. destruct E as [[title s1] [E1 E]]. apply read_header_suffix in E1. cbn [snd] in E1.
  apply bind_ok in E. destruct E as [[crs s2] [E2 E]]. apply read_CRS_suffix in E2. cbn [snd] in E2.
  apply bind_ok in E. destruct E as [[vp s3] [E3 E]]. apply read_prop_header_suffix in E3. cbn [snd] in E3.
  apply bind_ok in E. destruct E as [[tp s4] [E4 E]]. apply read_prop_header_suffix in E4. cbn [snd] in E4.
  assert (CL4 : copies_last (pending s4)) by (do 5 (eapply copies_last_suffix; [eassumption|]); exact CL). clear E0 E1 E2 E3 E4 CL.
  unfold lso_body in E. apply bind_ok in E. destruct E as [[line s5] [E5 E]]. apply goto_keywords_suffix in E5.
  apply (copies_last_suffix _ _ E5) in CL4.
  apply bind_ok in E. destruct E as [[[sv line2] s6] [E6 E]].
  assert (solid_inv sv /\ ordered sv) as [SI OR].
  { eapply vertices_inv; [apply empty_inv| |left; reflexivity|exact CL4|exact E6]. intros u Hu. cbn [sv_map] in Hu. change (lenz []) with 0 in Hu. lia. }
  clear E6. apply bind_ok in E. destruct E as [[line3 s7] [_ E]].
  apply bind_ok in E. destruct E as [[[st line4] s8] [E7 E]].
  assert (TI : Forall (fun e => quad_in (lenz (sv_points sv)) (fst e)) (st_tets st)) by (eapply tetras_inv; [apply le_n| |exact E7]; constructor).
  clear E7. apply bind_ok in E. destruct E as [[line5 s9] [_ E]]. apply bind_ok in E. destruct E as [[line5' s10] [_ E]].
  destruct (getline line5' s10) as [[g line6] s11]. apply bind_ok in E. destruct E as [[[[ss hs] line7] s12] [E8 E]].
  assert (SF : surf_inv sv (st_tets st) ss) by (eapply surfaces_inv; [exact SI|exact OR|exact TI|apply no_surf_inv|exact E8]).
  apply (surfaces_inspect sv SI OR (st_tets st) TI) in E8; [|reflexivity].
  apply bind_ok in E. destruct E as [[bs bad] [E9 E]].
  match type of E with Ok ?x = _ => assert (m' = x) as -> by congruence end. clear E. cbn [i_blocks i_surfs i_inspect] in *.
  destruct (blocks_bad _ _ _ _ _ _ _ _ _ _ E9) as [bads [HB ->]].
  exists (map (fun e => (map (corners_uv (sv_uid sv)) (facets_of (fst e)), snd e)) (st_tets st)). split.
  { clear E8 E9. induction HB as [|r bd rs bads' [name EB] _ IH]; constructor; [|assumption]. clear IH.
    assert (HK : Forall (fun t => Forall (known sv) (quad_list t)) (block_tets (st_tets st) name)).
    { unfold block_tets. apply Forall_map, Forall_forall. intros e He. apply filter_In in He. destruct He as [He _].
      rewrite Forall_forall in TI. specialize (TI e He). unfold quad_in in TI. eapply Forall_impl; [|exact TI]. intros v Hv. cbn beta in Hv.
      destruct (nthz_in_range (sv_points sv) v Hv) as [p Hp]. exists p, (at_ (sv_uid sv) v). split; [assumption|now apply uid_defined]. }
    destruct (use_tets_spec sv (block_tets (st_tets st) name) no_vertex (no_vertex_ok sv) HK) as [us [ts' [EU [U [_ [HT _]]]]]].
    unfold build_block in EB. rewrite EU in EB. cbn [bind] in EB. apply bind_ok in EB. destruct EB as [va [_ EB]]. apply bind_ok in EB. destruct EB as [ta [_ EB]].
    match type of EB with Ok (?x, ?y) = _ => assert (r = x) as -> by congruence end. clear EB.
    unfold facets_uv. cbn [r_uv r_tets r_name].
    assert (EF : map (corners_uv (us_uv us)) (flat_map facets_of ts') = map (corners_uv (sv_uid sv)) (flat_map facets_of (block_tets (st_tets st) name))).
    { clear -HT U. induction HT as [|q q' l l' Hq _ IH]; [reflexivity|]. cbn [flat_map]. rewrite !map_app, IH. f_equal. now apply facets_uv_ok. }
    rewrite EF. unfold block_tets. clear. induction (st_tets st) as [|[q n] l IH]; [reflexivity|]. cbn [map filter fst snd].
    destruct (beq n name); cbn [map flat_map fst]; [rewrite map_app; now f_equal|exact IH]. }
  assert (EN : (ss_inspect ss = true <-> exists h t, In h (ss_surfs ss) /\ In t (tris_uv h) /\
     forall e f, In e (map (fun e => (map (corners_uv (sv_uid sv)) (facets_of (fst e)), snd e)) (st_tets st)) -> In f (fst e) -> ~ same_corners f t)).
  { rewrite E8, existsb_exists. clear. split.
    - intros [h [Hh H]]. apply existsb_exists in H. destruct H as [t [Ht H]]. exists h, t. split; [assumption|]. split; [assumption|].
      unfold loose in H. apply negb_true_iff in H. intros e f He Hf HC. apply in_map_iff in He. destruct He as [e0 [<- He]]. cbn [fst] in Hf. apply in_map_iff in Hf.
      destruct Hf as [g [<- Hg]]. apply same_cornersb_ok in HC.
      assert (existsb (fun g => same_cornersb (corners_uv (sv_uid sv) g) t) (flat_map facets_of (map fst (st_tets st))) = true); [|congruence].
      apply existsb_exists. exists g. split; [|assumption]. apply in_flat_map. exists (fst e0). split; [now apply in_map|assumption].
    - intros [h [t [Hh [Ht H]]]]. exists h. split; [assumption|]. apply existsb_exists. exists t. split; [assumption|]. unfold loose. apply negb_true_iff.
      destruct (existsb _ _) eqn:EX; [|reflexivity]. exfalso. apply existsb_exists in EX. destruct EX as [g [Hg EX]]. apply same_cornersb_ok in EX.
      apply in_flat_map in Hg. destruct Hg as [q [Hq Hg]]. apply in_map_iff in Hq. destruct Hq as [e0 [<- He]].
      apply (H (map (corners_uv (sv_uid sv)) (facets_of (fst e0)), snd e0) (corners_uv (sv_uid sv) g)); [|now apply in_map|assumption].
      apply in_map_iff. eauto. }
  rewrite orb_true_iff, EN. clear EN E8.
  assert (HBB : Forall2 (fun r bd => bd = true <-> exists h, In h (ss_surfs ss) /\ bad_count r h) bs bads).
  { clear E9. induction HB as [|r bd rs bads' [name EB] _ IH]; constructor; [|assumption]. clear IH.
    assert (EC : forall k h, nthz (ss_surfs ss) k = Some h -> facets_on (ss_facets ss) (block_tets (st_tets st) name) k = count_on r h).
    { intros k h Hk. eapply build_block_count; [exact SI|exact TI|reflexivity|exact SF|exact EB|exact Hk|]. intros k' h' t t' H1 H2 H3 H4. symmetry. eapply AP; eassumption. }
    assert (bd = not_conformal F (ss_facets ss) (block_tets (st_tets st) name) (ss_surfs ss)) as ->.
    { clear -EB. unfold build_block in EB. apply bind_ok in EB. destruct EB as [[us ts] [_ EB]]. apply bind_ok in EB. destruct EB as [va [_ EB]].
      apply bind_ok in EB. destruct EB as [ta [_ EB]]. congruence. }
    rewrite not_conformal_ok. split.
    - intros [k [h [Hk H]]]. exists h. split; [eapply nthz_in; exact Hk|]. rewrite (EC k h Hk) in H. exact H.
    - intros [h [Hh H]]. assert (exists k, nthz (ss_surfs ss) k = Some h) as [k Hk].
      { clear -Hh. apply In_nth_error in Hh. destruct Hh as [n Hn]. exists (Z.of_nat n). assert (n < List.length (ss_surfs ss))%nat by (apply nth_error_Some; congruence).
        unfold nthz. rewrite Nat2Z.id. destruct (Z.leb_spec 0 (Z.of_nat n)); [|lia]. destruct (Z.ltb_spec (Z.of_nat n) (Z.of_nat (List.length (ss_surfs ss)))); [|lia]. exact Hn. }
      exists k, h. split; [assumption|]. rewrite (EC k h Hk). exact H. }
  clear -HBB. assert (X : existsb (fun b => b) bads = true <-> exists r h, In r bs /\ In h (ss_surfs ss) /\ bad_count r h); [|tauto].
  induction HBB as [|r bd bs bads H _ IH]; cbn [existsb In].
  - split; [discriminate|]. intros [r [h [[] _]]].
  - rewrite orb_true_iff, H, IH. split.
    + intros [[h [H1 H2]]|[r' [h [H1 H2]]]]; [exists r, h; auto|exists r', h; split; [now right|assumption]].
    + intros [r' [h [[<-|H1] H2]]]; [left; exists h; auto|right; exists r', h; auto].
Qed.
End FileInspect.
