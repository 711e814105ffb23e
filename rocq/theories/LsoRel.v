(** * Blocks and surfaces of a loaded .lso file: when they are related. *)
From Coq Require Import ZArith List Lia Bool Ascii String Permutation.
From Verif Require Import Base Text TextFacts GocadModel MeshModel TsModel Spec GocadFacts TsFacts LsoModel LsoFacts LsoRead LsoRound LsoFile LsoWhole LsoTrip StreamFacts.
Import ListNotations.
Local Open Scope string_scope.
Local Open Scope list_scope.
Local Open Scope Z_scope.

(** ** Facets are compared up to the order of their vertices *)
Lemma perm3 (a b c d e f : Z) : Permutation [a; b; c] [d; e; f] ->
  (a = d /\ b = e /\ c = f) \/ (a = d /\ b = f /\ c = e) \/ (a = e /\ b = d /\ c = f) \/
  (a = e /\ b = f /\ c = d) \/ (a = f /\ b = d /\ c = e) \/ (a = f /\ b = e /\ c = d).
Proof.
  intros H. assert (Ha : In a [d; e; f]) by (eapply Permutation_in; [exact H|now left]).
  destruct Ha as [->|[->|[->|[]]]].
  - apply Permutation_cons_inv in H. assert (Hb : In b [e; f]) by (eapply Permutation_in; [exact H|now left]).
    destruct Hb as [->|[->|[]]].
    + apply Permutation_cons_inv in H. apply Permutation_length_1 in H. auto.
    + apply (Permutation_cons_app_inv [e] []) in H. apply Permutation_length_1 in H. auto.
  - apply (Permutation_cons_app_inv [d] [f]) in H. cbn [app] in H. assert (Hb : In b [d; f]) by (eapply Permutation_in; [exact H|now left]).
    destruct Hb as [->|[->|[]]].
    + apply Permutation_cons_inv in H. apply Permutation_length_1 in H. tauto.
    + apply (Permutation_cons_app_inv [d] []) in H. apply Permutation_length_1 in H. tauto.
  - apply (Permutation_cons_app_inv [d; e] []) in H. cbn [app] in H. assert (Hb : In b [d; e]) by (eapply Permutation_in; [exact H|now left]).
    destruct Hb as [->|[->|[]]].
    + apply Permutation_cons_inv in H. apply Permutation_length_1 in H. tauto.
    + apply (Permutation_cons_app_inv [d] []) in H. apply Permutation_length_1 in H. tauto.
Qed.
Lemma p132 (a b c : Z) : Permutation [a; c; b] [a; b; c]. Proof. apply perm_skip, perm_swap. Qed.
Lemma p213 (a b c : Z) : Permutation [b; a; c] [a; b; c]. Proof. apply perm_swap. Qed.
Lemma p231 (a b c : Z) : Permutation [b; c; a] [a; b; c]. Proof. rewrite p132. apply p213. Qed.
Lemma p312 (a b c : Z) : Permutation [c; a; b] [a; b; c]. Proof. rewrite p213. apply p132. Qed.
Lemma p321 (a b c : Z) : Permutation [c; b; a] [a; b; c]. Proof. rewrite p213. apply p231. Qed.
Lemma sort3_perm t : Permutation (tri_list (sort3 t)) (tri_list t).
Proof.
  destruct t as [[a b] c]. unfold sort3.
  destruct (b <? a); destruct (c <? _); destruct (_ <? _); cbn [tri_list];
    first [reflexivity | apply p132 | apply p213 | apply p231 | apply p312 | apply p321].
Qed.
Definition same_corners (s t : tri) : Prop := Permutation (tri_list s) (tri_list t).
Lemma sort3_eq s t : sort3 s = sort3 t <-> same_corners s t.
Proof.
  split.
  - intros E. unfold same_corners. rewrite <- (sort3_perm s), E. apply sort3_perm.
  - destruct s as [[a b] c], t as [[d e] f]. intros H. apply perm3 in H. unfold sort3.
    assert (X : forall x y : Z, (x <? y) = true -> x < y) by (intros; now apply Z.ltb_lt).
    assert (Y : forall x y : Z, (x <? y) = false -> y <= x) by (intros; now apply Z.ltb_ge).
    destruct H as [[-> [-> ->]]|[[-> [-> ->]]|[[-> [-> ->]]|[[-> [-> ->]]|[[-> [-> ->]]|[-> [-> ->]]]]]]]; try reflexivity;
    destruct (Z.ltb_spec e d), (Z.ltb_spec f e), (Z.ltb_spec d f), (Z.ltb_spec f d), (Z.ltb_spec e f), (Z.ltb_spec d e); try lia;
    repeat match goal with |- context[if ?x <? ?y then _ else _] => destruct (Z.ltb_spec x y); try lia end;
    repeat (f_equal; try lia).
Qed.
Lemma tri_eqb_eq s t : tri_eqb s t = true <-> s = t.
Proof.
  destruct s as [[a b] c], t as [[d e] f]. unfold tri_eqb. rewrite !andb_true_iff, !Z.eqb_eq. split; [intros [[-> ->] ->]; reflexivity|].
  intros E. assert (a = d /\ b = e /\ c = f) by (repeat split; congruence). tauto.
Qed.
Lemma is_facet_ok tets f : is_facet tets f = true <-> exists g, In g (flat_map facets_of (map fst tets)) /\ same_corners g f.
Proof.
  unfold is_facet. rewrite existsb_exists. split.
  - intros [e [He H]]. apply existsb_exists in H. destruct H as [g [Hg H]]. apply tri_eqb_eq, sort3_eq in H. exists g. split; [|assumption].
    apply in_flat_map. exists (fst e). split; [now apply in_map|assumption].
  - intros [g [Hg H]]. apply in_flat_map in Hg. destruct Hg as [q [Hq Hg]]. apply in_map_iff in Hq. destruct Hq as [e [<- He]]. exists e. split; [assumption|].
    apply existsb_exists. exists g. split; [assumption|]. now apply tri_eqb_eq, sort3_eq.
Qed.

(** Unique vertices of the corners of a cell. *)
Definition at_ (uv : list Z) (v : Z) : Z := match nthz uv v with Some u => u | None => -1 end.
Definition corners_uv (uv : list Z) (t : tri) : tri := let '(a, b, c) := t in (at_ uv a, at_ uv b, at_ uv c).
Lemma corners_list uv t : tri_list (corners_uv uv t) = map (at_ uv) (tri_list t).
Proof. destruct t as [[a b] c]. reflexivity. Qed.
Lemma at_some uv v u : nthz uv v = Some u -> at_ uv v = u.
Proof. unfold at_. intros ->. reflexivity. Qed.

Section Rel.
Context {F : Num} (sv : SolidV F) (SI : solid_inv sv).
(** Vertices first, then their copies. *)
Definition ordered : Prop := forall u, 0 <= u < lenz (sv_map sv) -> nthz (sv_uid sv) u = Some u.
Context (OR : ordered).
Variable tets : list (quad * bytes).
Let facets := flat_map facets_of (map fst tets).
Context (TI : Forall (fun e => quad_in (lenz (sv_points sv)) (fst e)) tets).

Lemma facets_quad q g v : In g (facets_of q) -> In v (tri_list g) -> In v (quad_list q).
Proof.
  destruct q as [[[a b] c] d]. cbn [facets_of quad_list In]. intros [<-|[<-|[<-|[<-|[]]]]]; cbn [tri_list In]; tauto.
Qed.
Lemma facet_in g : In g facets -> Forall (fun v => 0 <= v < lenz (sv_points sv)) (tri_list g).
Proof.
  intros H. apply in_flat_map in H. destruct H as [q [Hq Hg]]. apply in_map_iff in Hq. destruct Hq as [e [<- He]].
  rewrite Forall_forall in TI. specialize (TI e He). unfold quad_in in TI. rewrite Forall_forall in TI. apply Forall_forall. intros v Hv.
  apply TI. eapply facets_quad; eassumption.
Qed.
Lemma uid_defined v : 0 <= v < lenz (sv_points sv) -> nthz (sv_uid sv) v = Some (at_ (sv_uid sv) v).
Proof.
  intros H. destruct (nthz_in_range (sv_uid sv) v) as [u Hu]; [pose proof (si_len sv SI); unfold lenz in *; lia|]. now rewrite (at_some _ _ _ Hu).
Qed.

Lemma in_triples (la lb lc : list Z) f : In f (flat_map (fun x => flat_map (fun y => map (fun z => (x, y, z)) lc) lb) la) <->
  exists x y z, f = (x, y, z) /\ In x la /\ In y lb /\ In z lc.
Proof.
  rewrite in_flat_map. split.
  - intros [x [Hx H]]. apply in_flat_map in H. destruct H as [y [Hy H]]. apply in_map_iff in H. destruct H as [z [<- Hz]]. exists x, y, z. auto.
  - intros [x [y [z [-> [Hx [Hy Hz]]]]]]. exists x. split; [assumption|]. apply in_flat_map. exists y. split; [assumption|]. apply in_map_iff. eauto.
Qed.
Lemma facets_from_ok t fs : facets_from_vertices F sv tets t = Ok fs ->
  Forall (fun v => 0 <= v < lenz (sv_map sv)) (tri_list t) /\
  forall f, In f fs <-> exists g, In g facets /\ f = sort3 g /\ same_corners (corners_uv (sv_uid sv) g) t.
Proof.
  destruct t as [[a b] c]. unfold facets_from_vertices. intros E.
  apply bind_ok in E. destruct E as [la [Ea E]]. apply bind_ok in E. destruct E as [lb [Eb E]]. apply bind_ok in E. destruct E as [lc [Ec E]].
  apply idxz_ok in Ea, Eb, Ec. cbn [tri_list].
  split; [repeat (apply Forall_cons; [eapply nthz_range; eassumption|]); constructor|]. intros f.
  assert (fs = map sort3 (filter (is_facet tets) (flat_map (fun x => flat_map (fun y => map (fun z => (x, y, z)) lc) lb) la))) as -> by congruence. clear E.
  destruct (si_map sv SI _ _ Ea) as [_ Ia]. destruct (si_map sv SI _ _ Eb) as [_ Ib]. destruct (si_map sv SI _ _ Ec) as [_ Ic].
  rewrite in_map_iff. split.
  - intros [h [<- H]]. apply filter_In in H. destruct H as [H HF]. apply in_triples in H. destruct H as [x [y [z [-> [Hx [Hy Hz]]]]]].
    apply is_facet_ok in HF. destruct HF as [g [Hg HS]]. exists g. split; [exact Hg|]. split; [symmetry; now apply sort3_eq|].
    apply Ia in Hx. apply Ib in Hy. apply Ic in Hz. unfold same_corners in *. rewrite corners_list. apply (Permutation_map (at_ (sv_uid sv))) in HS.
    cbn [tri_list map] in HS. rewrite (at_some _ _ _ Hx), (at_some _ _ _ Hy), (at_some _ _ _ Hz) in HS. exact HS.
  - intros [g [Hg [-> HS]]]. unfold same_corners in HS. rewrite corners_list in HS. cbn [tri_list] in HS. symmetry in HS. apply Permutation_map_inv in HS.
    destruct HS as [l [EL PL]]. destruct l as [|x [|y [|z [|? ?]]]]; try discriminate. cbn [map] in EL.
    assert (a = at_ (sv_uid sv) x /\ b = at_ (sv_uid sv) y /\ c = at_ (sv_uid sv) z) as [-> [-> ->]] by (repeat split; congruence).
    pose proof (facet_in g Hg) as HR. assert (HR' : Forall (fun v => 0 <= v < lenz (sv_points sv)) [x; y; z]) by (apply (Permutation_Forall PL); exact HR).
    inversion_clear HR' as [|? ? Rx H']. inversion_clear H' as [|? ? Ry H]. inversion_clear H as [|? ? Rz _].
    exists (x, y, z). split; [apply sort3_eq; apply Permutation_sym; exact PL|]. apply filter_In. split.
    + apply in_triples. exists x, y, z. rewrite Ia, Ib, Ic. auto using uid_defined.
    + apply is_facet_ok. exists g. split; assumption.
Qed.

(** Facets set by the triangles [T] (unique vertices of the corners) of surface [s]. *)
Definition set_by (T : list tri) (s : Z) (fm : list (tri * Z)) : Prop :=
  (forall f, In (f, s) fm -> exists t g, In t T /\ In g facets /\ f = sort3 g /\ same_corners (corners_uv (sv_uid sv) g) t) /\
  (forall t g, In t T -> In g facets -> same_corners (corners_uv (sv_uid sv) g) t -> In (sort3 g, s) fm).

Lemma use_vertex_inv us v us' i : used_ok sv us -> use_vertex F sv us v = Ok (us', i) ->
  known sv v /\ used_ok sv us' /\ grows us us' /\ nthz (us_seen us') i = Some v.
Proof.
  intros H E. assert (K : known sv v).
  { unfold use_vertex in E. destruct (find_pos v 0 (us_seen us)) as [k|] eqn:Ef.
    - apply find_pos_some in Ef. destruct Ef as [Ef _]. destruct H as [_ U2 U3]. apply mapM_ok in U2, U3.
      destruct (Forall2_nthz _ _ _ U2 _ _ Ef) as [p [_ Hp]]. destruct (Forall2_nthz _ _ _ U3 _ _ Ef) as [u [_ Hu]].
      apply idxz_ok in Hp, Hu. exists p, u. auto.
    - apply bind_ok in E. destruct E as [p [Hp E]]. apply bind_ok in E. destruct E as [u [Hu _]]. apply idxz_ok in Hp, Hu. exists p, u. auto. }
  destruct K as [p [u [Hp Hu]]]. split; [exists p, u; auto|].
  destruct (use_vertex_spec sv us v p u H Hp Hu) as [us1 [j [E1 [H1 [G1 [I1 _]]]]]]. rewrite E1 in E.
  assert (us1 = us' /\ j = i) as [<- <-] by (split; congruence). auto.
Qed.
(** Corner of a new cell: unique vertex. *)
Lemma used_uv us i v : used_ok sv us -> nthz (us_seen us) i = Some v -> at_ (us_uv us) i = at_ (sv_uid sv) v.
Proof.
  intros [_ _ U] H. apply mapM_ok in U. destruct (Forall2_nthz _ _ _ U _ _ H) as [u [Hu Hv]]. apply idxz_ok in Hv.
  rewrite (at_some _ _ _ Hu), (at_some _ _ _ Hv). reflexivity.
Qed.
Lemma uv_grows us us' i : used_ok sv us -> used_ok sv us' -> grows us us' -> (exists v, nthz (us_seen us) i = Some v) -> at_ (us_uv us') i = at_ (us_uv us) i.
Proof. intros H H' G [v Hv]. rewrite (used_uv us i v H Hv), (used_uv us' i v H' (G _ _ Hv)). reflexivity. Qed.

(** State of a surface under construction. *)
Record tri_inv (s : Z) (fm0 : list (tri * Z)) (st : TriSt F) : Prop := {
  ti_used : used_ok sv (ts_used st);
  ti_tris : Forall (fun t => Forall (fun i => exists v, nthz (us_seen (ts_used st)) i = Some v) (tri_list t)) (ts_tris st);
  ti_new : exists nw, ts_facets st = nw ++ fm0 /\ Forall (fun e => snd e = s) nw /\
            set_by (map (corners_uv (us_uv (ts_used st))) (ts_tris st)) s nw
}.
Lemma ordered_uid a : 0 <= a < lenz (sv_map sv) -> at_ (sv_uid sv) a = a.
Proof. intros H. apply at_some. now apply OR. Qed.
Lemma trgl_inv s fm0 st line st' : tri_inv s fm0 st -> lso_trgl F sv tets s st line = Ok st' -> tri_inv s fm0 st'.
Proof.
  intros [U T [nw [EN [NS [SB1 SB2]]]]] E. unfold lso_trgl in E.
  apply bind_ok in E. destruct E as [a [_ E]]. apply bind_ok in E. destruct E as [[us1 ia] [E1 E]].
  apply bind_ok in E. destruct E as [b [_ E]]. apply bind_ok in E. destruct E as [[us2 ib] [E2 E]].
  apply bind_ok in E. destruct E as [c [_ E]]. apply bind_ok in E. destruct E as [[us3 ic] [E3 E]].
  apply bind_ok in E. destruct E as [fs [Ef E]].
  destruct (use_vertex_inv _ _ _ _ U E1) as [_ [U1 [G1 I1]]]. destruct (use_vertex_inv _ _ _ _ U1 E2) as [_ [U2 [G2 I2]]].
  destruct (use_vertex_inv _ _ _ _ U2 E3) as [_ [U3 [G3 I3]]].
  destruct (facets_from_ok _ _ Ef) as [HR HFS]. cbn [tri_list] in HR. inversion_clear HR as [|? ? Ra H']. inversion_clear H' as [|? ? Rb H].
  inversion_clear H as [|? ? Rc _].
  assert (G : grows (ts_used st) us3) by (intros i v Hv; auto).
  pose proof (G2 _ _ I1) as I1'. pose proof (G3 _ _ I1') as I1''. pose proof (G3 _ _ I2) as I2'.
  assert (EC : corners_uv (us_uv us3) (ia, ib, ic) = (a, b, c)).
  { cbn [corners_uv]. rewrite (used_uv us3 ia a), (used_uv us3 ib b), (used_uv us3 ic c) by assumption. now rewrite !ordered_uid. }
  assert (EO : map (corners_uv (us_uv us3)) (ts_tris st) = map (corners_uv (us_uv (ts_used st))) (ts_tris st)).
  { apply map_ext_in. intros [[x y] z] Ht. rewrite Forall_forall in T. specialize (T _ Ht). cbn [tri_list] in T.
    inversion_clear T as [|? ? Tx H']. inversion_clear H' as [|? ? Ty H]. inversion_clear H as [|? ? Tz _]. cbn [corners_uv].
    now rewrite !(uv_grows (ts_used st) us3) by assumption. }
  match type of E with Ok ?x = _ => assert (st' = x) as -> by congruence end. clear E.
  split; cbn [ts_used ts_tris ts_facets].
  - assumption.
  - apply Forall_app. split.
    + eapply Forall_impl; [|exact T]. intros t Ht. cbn beta in Ht. eapply Forall_impl; [|exact Ht]. intros i [v Hv]. exists v. auto.
    + constructor; [|constructor]. cbn [tri_list]. repeat (apply Forall_cons; [eexists; eassumption|]). constructor.
  - exists (rev (map (fun f => (f, s)) fs) ++ nw). split; [now rewrite EN, app_assoc|]. split.
    + apply Forall_app. split; [|assumption]. apply Forall_rev, Forall_map, Forall_forall. reflexivity.
    + rewrite map_app, EO. cbn [map]. rewrite EC. split.
      * intros f Hf. apply in_app_or in Hf. destruct Hf as [Hf|Hf].
        { rewrite <- in_rev in Hf. apply in_map_iff in Hf. destruct Hf as [f' [Ef' Hf]]. assert (f' = f) as -> by congruence. apply HFS in Hf.
          destruct Hf as [g [Hg [-> HS]]]. exists (a, b, c), g. split; [apply in_or_app; right; now left|]. auto. }
        { destruct (SB1 f Hf) as [t [g [Ht HG]]]. exists t, g. split; [apply in_or_app; now left|assumption]. }
      * intros t g Ht Hg HS. apply in_or_app. apply in_app_or in Ht. destruct Ht as [Ht|[<-|[]]].
        { right. now apply (SB2 t). }
        { left. rewrite <- in_rev. apply in_map_iff. exists (sort3 g). split; [reflexivity|]. apply HFS. exists g. auto. }
Qed.
Lemma triangles_inv s fm0 ls : forall st line b st' l' s', tri_inv s fm0 st -> lso_triangles F sv tets s st line b ls = Ok (st', l', s') -> tri_inv s fm0 st'.
Proof.
  induction ls as [|l ls IH]; intros st line b st' l' s' H E; cbn [lso_triangles] in E; [congruence|].
  destruct (starts_with l "TRGL"); [|congruence]. apply bind_ok in E. destruct E as [st1 [E1 E]]. eapply IH; [|exact E]. eapply trgl_inv; eassumption.
Qed.

(** The surfaces: facets of each one. *)
Definition tris_uv (h : LSurfR F) : list tri := map (corners_uv (h_uv h)) (h_tris h).
Record surf_inv (ss : SurfSt F) : Prop := {
  sf_snd : forall f s, In (f, s) (ss_facets ss) -> 0 <= s < lenz (ss_surfs ss);
  sf_set : forall s h, nthz (ss_surfs ss) s = Some h -> set_by (tris_uv h) s (ss_facets ss)
}.
Lemma set_by_app T s a b : (Forall (fun e => snd e <> s) a) -> set_by T s b -> set_by T s (a ++ b).
Proof.
  intros HA [H1 H2]. rewrite Forall_forall in HA. split.
  - intros f Hf. apply in_app_or in Hf. destruct Hf as [Hf|Hf]; [exfalso; exact (HA _ Hf eq_refl)|auto].
  - intros t g Ht Hg HS. apply in_or_app. right. eauto.
Qed.
Lemma tfaces_inv fuel name : forall ss line s ss' l' s', surf_inv ss -> lso_tfaces F fuel sv tets name ss line s = Ok (ss', l', s') -> surf_inv ss'.
Proof.
  induction fuel as [|fuel IH]; intros ss line s ss' l' s' H E; [discriminate|]. cbn [lso_tfaces] in E.
  destruct (starts_with line "TFACE"); [|congruence]. destruct (getline line s) as [[g line1] s1]. apply bind_ok in E.
  destruct E as [[[ts line2] s2] [E1 E]]. eapply IH; [|exact E]. clear E IH.
  apply triangles_inv with (fm0 := ss_facets ss) in E1.
  - destruct H as [H1 H2]. destruct E1 as [_ _ [nw [EN [NS SB]]]]. rewrite Forall_forall in NS. pose proof (lenz_nonneg (ss_surfs ss)).
    split; cbn [ss_facets ss_surfs]; rewrite EN.
    + intros f k Hf. rewrite lenz_app. change (lenz [_]) with 1. apply in_app_or in Hf. destruct Hf as [Hf|Hf].
      * apply NS in Hf. cbn [snd] in Hf. lia.
      * apply H1 in Hf. lia.
    + intros k h Hk. apply nthz_snoc in Hk. destruct Hk as [Hk|[-> ->]].
      * apply set_by_app; [|now apply H2]. apply Forall_forall. intros e He. rewrite (NS e He). apply nthz_range in Hk. lia.
      * unfold tris_uv. cbn [h_uv h_tris]. destruct SB as [SB1 SB2]. split.
        -- intros f Hf. apply in_app_or in Hf. destruct Hf as [Hf|Hf]; [auto|]. apply H1 in Hf. lia.
        -- intros t g0 Ht Hg HS. apply in_or_app. left. eauto.
  - split; cbn [ts_used ts_tris ts_facets].
    + apply no_vertex_ok.
    + constructor.
    + exists []. split; [reflexivity|]. split; [constructor|]. split; [intros ? []|intros ? ? []].
Qed.
Lemma surfaces_inv fuel : forall ss hs line s ss' hs' l' s', surf_inv ss -> lso_surfaces F fuel sv tets ss hs line s = Ok (ss', hs', l', s') -> surf_inv ss'.
Proof.
  induction fuel as [|fuel IH]; intros ss hs line s ss' hs' l' s' H E; [discriminate|]. cbn [lso_surfaces] in E.
  destruct (starts_with line "SURFACE"); [|congruence]. destruct (getline line s) as [[g line1] s1]. apply bind_ok in E.
  destruct E as [[[st line2] s2] [E1 E]]. eapply IH; [|exact E]. eapply tfaces_inv; eassumption.
Qed.
Lemma no_surf_inv b : surf_inv (mkSurfSt [] [] b).
Proof. split; cbn [ss_facets ss_surfs]; [intros ? ? []|]. intros s h H. apply nthz_in in H. destruct H. Qed.

(** Surface of a facet, when no other surface has a triangle on it. *)
Lemma facet_surface_ok ss s h g : surf_inv ss -> nthz (ss_surfs ss) s = Some h -> In g facets ->
  (forall s' h' t t', nthz (ss_surfs ss) s' = Some h' -> In t (tris_uv h) -> In t' (tris_uv h') -> same_corners t t' -> s' = s) ->
  (facet_surface (ss_facets ss) g = Some s <-> exists t, In t (tris_uv h) /\ same_corners (corners_uv (sv_uid sv) g) t).
Proof.
  intros [H1 H2] Hs Hg HD. destruct (H2 s h Hs) as [SB1 SB2]. unfold facet_surface. split.
  - intros E. destruct (find (fun e => tri_eqb (fst e) (sort3 g)) (ss_facets ss)) as [[f k]|] eqn:Ef; [|discriminate]. cbn [option_map snd] in E.
    assert (k = s) as -> by congruence. apply find_some in Ef. destruct Ef as [Hf Ef]. cbn [fst] in Ef. apply tri_eqb_eq in Ef. subst f.
    destruct (SB1 _ Hf) as [t [g' [Ht [Hg' [Eg HS]]]]]. exists t. split; [assumption|]. apply sort3_eq in Eg. unfold same_corners in *.
    rewrite corners_list in *. rewrite (Permutation_map (at_ (sv_uid sv)) Eg). exact HS.
  - intros [t [Ht HS]]. pose proof (SB2 t g Ht Hg HS) as Hi.
    destruct (find (fun e => tri_eqb (fst e) (sort3 g)) (ss_facets ss)) as [[f k]|] eqn:Ef.
    + cbn [option_map snd]. f_equal. apply find_some in Ef. destruct Ef as [Hf Ef]. cbn [fst] in Ef. apply tri_eqb_eq in Ef. subst f.
      destruct (nthz_in_range (ss_surfs ss) k) as [h' Hk]; [exact (H1 _ _ Hf)|].
      destruct (H2 k h' Hk) as [SB1' _]. destruct (SB1' _ Hf) as [t' [g' [Ht' [Hg' [Eg HS']]]]]. apply (HD k h' t t' Hk Ht Ht').
      apply sort3_eq in Eg. unfold same_corners in *. rewrite corners_list in *. rewrite <- HS, <- HS'.
      now apply Permutation_map.
    + apply (find_none _ _ Ef) in Hi. cbn [fst] in Hi. assert (tri_eqb (sort3 g) (sort3 g) = true) by now apply tri_eqb_eq. congruence.
Qed.

(** Number of facets of a block on a surface. *)
Definition same_cornersb (s t : tri) : bool := tri_eqb (sort3 s) (sort3 t).
Definition on_surface (T : list tri) (g : tri) : bool := existsb (same_cornersb g) T.
Definition facets_uv (r : LBlockR F) : list tri := map (corners_uv (r_uv r)) (flat_map facets_of (r_tets r)).
Definition count_on (r : LBlockR F) (h : LSurfR F) : Z := lenz (filter (on_surface (tris_uv h)) (facets_uv r)).
Lemma on_surface_ok T g : on_surface T g = true <-> exists t, In t T /\ same_corners g t.
Proof.
  unfold on_surface. rewrite existsb_exists. split; intros [t [Ht H]]; exists t; (split; [assumption|]).
  - now apply tri_eqb_eq, sort3_eq in H.
  - now apply tri_eqb_eq, sort3_eq.
Qed.
Lemma facets_uv_ok us q q' : used_ok sv us -> tet_at (us_seen us) q q' ->
  map (corners_uv (us_uv us)) (facets_of q') = map (corners_uv (sv_uid sv)) (facets_of q).
Proof.
  intros U H. destruct q as [[[a b] c] d], q' as [[[a' b'] c'] d']. unfold tet_at in H. cbn [quad_list] in H.
  inversion_clear H as [|? ? ? ? Ha H']. inversion_clear H' as [|? ? ? ? Hb H]. inversion_clear H as [|? ? ? ? Hc H']. inversion_clear H' as [|? ? ? ? Hd _].
  cbn [facets_of map corners_uv]. now rewrite !(used_uv us _ _ U Ha), !(used_uv us _ _ U Hb), !(used_uv us _ _ U Hc), !(used_uv us _ _ U Hd).
Qed.
Lemma build_block_count crs' h' st ss name r bad s h : st_tets st = tets -> surf_inv ss ->
  build_block F crs' h' sv st ss name = Ok (r, bad) -> nthz (ss_surfs ss) s = Some h ->
  (forall s' h' t t', nthz (ss_surfs ss) s' = Some h' -> In t (tris_uv h) -> In t' (tris_uv h') -> same_corners t t' -> s' = s) ->
  facets_on (ss_facets ss) (block_tets (st_tets st) name) s = count_on r h.
Proof.
  intros ET SF E Hs HD. unfold build_block in E. rewrite ET in *.
  assert (HK : Forall (fun t => Forall (known sv) (quad_list t)) (block_tets tets name)).
  { unfold block_tets. apply Forall_map, Forall_forall. intros e He. apply filter_In in He. destruct He as [He _].
    rewrite Forall_forall in TI. specialize (TI e He). unfold quad_in in TI. eapply Forall_impl; [|exact TI]. intros v Hv. cbn beta in Hv.
    destruct (nthz_in_range (sv_points sv) v Hv) as [p Hp]. exists p, (at_ (sv_uid sv) v). split; [assumption|now apply uid_defined]. }
  destruct (use_tets_spec sv (block_tets tets name) no_vertex (no_vertex_ok sv) HK) as [us [ts' [EU [U [_ [HT _]]]]]].
  rewrite EU in E. cbn [bind] in E. apply bind_ok in E. destruct E as [va [_ E]]. apply bind_ok in E. destruct E as [ta [_ E]].
  match type of E with Ok (?x, ?y) = _ => assert (r = x) as -> by congruence end. clear E.
  unfold facets_on, count_on, facets_uv. cbn [r_uv r_tets].
  assert (EF : map (corners_uv (us_uv us)) (flat_map facets_of ts') = map (corners_uv (sv_uid sv)) (flat_map facets_of (block_tets tets name))).
  { clear -HT U. induction HT as [|q q' l l' Hq _ IH]; [reflexivity|]. cbn [flat_map]. rewrite !map_app, IH. f_equal. now apply facets_uv_ok. }
  rewrite EF.
  assert (HI : Forall (fun g => In g facets) (flat_map facets_of (block_tets tets name))).
  { apply Forall_forall. intros g Hg. apply in_flat_map in Hg. destruct Hg as [q [Hq Hg]]. apply in_flat_map. exists q. split; [|assumption].
    unfold block_tets in Hq. apply in_map_iff in Hq. destruct Hq as [e [<- He]]. apply filter_In in He. now apply in_map. }
  clear -SF Hs HD HI. induction HI as [|g l Hg HI IH]; [reflexivity|]. cbn [filter map].
  assert (HB : match facet_surface (ss_facets ss) g with Some x => x =? s | None => false end = on_surface (tris_uv h) (corners_uv (sv_uid sv) g)).
  { pose proof (facet_surface_ok ss s h g SF Hs Hg HD) as HX.
    destruct (on_surface (tris_uv h) (corners_uv (sv_uid sv) g)) eqn:EO.
    - apply on_surface_ok in EO. apply HX in EO. rewrite EO. apply Z.eqb_refl.
    - destruct (facet_surface (ss_facets ss) g) as [x|]; [|reflexivity]. apply Z.eqb_neq. intros ->.
      assert (on_surface (tris_uv h) (corners_uv (sv_uid sv) g) = true); [|congruence]. apply on_surface_ok. now apply HX. }
  rewrite HB. destruct (on_surface _ _); [rewrite !lenz_cons, IH; reflexivity|exact IH].
Qed.
Lemma in_indexed {A} (l : list A) k x : In (k, x) (combine (rangez 0 (List.length l)) l) <-> nthz l k = Some x.
Proof.
  assert (G : forall n, In (k, x) (combine (rangez n (List.length l)) l) <-> nthz l (k - n) = Some x).
  { induction l as [|y l IH]; intros n; cbn [List.length rangez combine In].
    - split; [tauto|]. intros H. apply nthz_in in H. destruct H.
    - rewrite nthz_cons, IH. replace (k - (n + 1)) with (k - n - 1) by lia. destruct (Z.eqb_spec (k - n) 0) as [E|E].
      + split; [intros [H|H]; [congruence|apply nthz_range in H; lia]|]. intros H. left. f_equal; [lia|congruence].
      + split; [intros [H|H]; [assert (n = k) by congruence; lia|assumption]|auto]. }
  rewrite G. now rewrite Z.sub_0_r.
Qed.
Lemma related_ok fm ts surfs c s : In s (related F fm ts surfs c) <->
  exists h, nthz surfs s = Some h /\ 0 < facets_on fm ts s /\ facets_on fm ts s / lenz (h_tris h) = c.
Proof.
  unfold related. rewrite in_map_iff. split.
  - intros [[k h] [E H]]. cbn [fst] in E. subst k. apply filter_In in H. destruct H as [H1 H2]. cbn [fst snd] in H2. apply in_indexed in H1.
    apply andb_true_iff in H2. destruct H2 as [H2 H3]. apply Z.ltb_lt in H2. apply Z.eqb_eq in H3. exists h. auto.
  - intros [h [H1 [H2 H3]]]. exists (s, h). split; [reflexivity|]. apply filter_In. split; [now apply in_indexed|]. cbn [fst snd].
    apply andb_true_iff. split; [now apply Z.ltb_lt|now apply Z.eqb_eq].
Qed.
End Rel.

(** ** From the file *)

(** No new vertex after a copy of a vertex in a run of vertex lines. *)
Definition copies_follow (ls : list bytes) : Prop :=
  forall b x c, ls = b ++ x :: c -> Forall (fun y => contains y "VRTX" = true) b -> contains x "VRTX" = true ->
    starts_with x "SHARED" = true.
Definition copies_last (ls : list bytes) : Prop :=
  forall a l b, ls = a ++ l :: b -> starts_with l "SHARED" = true -> copies_follow b.
Lemma copies_last_tl l ls : copies_last (l :: ls) -> copies_last ls.
Proof. intros H a x b E. apply (H (l :: a) x b). cbn [app]. now rewrite E. Qed.
Lemma copies_last_suffix a b : suffix a b -> copies_last b -> copies_last a.
Proof. intros [p ->] H x l y E. apply (H (p ++ x) l y). now rewrite E, app_assoc. Qed.

Section FileRel.
Context {F : Num}.
Lemma vertices_inv crs h ls : forall sv line b sv' l' s',
  solid_inv sv -> ordered sv ->
  (lenz (sv_uid sv) = lenz (sv_map sv) \/ starts_with line "SHARED" = true) ->
  copies_last (line :: ls) ->
  lso_vertices F crs h sv line b ls = Ok (sv', l', s') -> solid_inv sv' /\ ordered sv'.
Proof.
  induction ls as [|l ls IH]; intros sv line b sv' l' s' SI OR HV CL E; cbn [lso_vertices] in E;
  (apply bind_ok in E; destruct E as [sv1 [E1 E]]); pose proof (lso_vertex_inv crs h sv line sv1 SI E1) as SI1;
  assert (ordered sv1 /\ (lenz (sv_uid sv1) = lenz (sv_map sv1) \/ starts_with line "SHARED" = true)) as [OR1 HV1].
  1,3: unfold lso_vertex in E1; destruct (starts_with line "SHARED") eqn:ES.
  1,3: (apply bind_ok in E1; destruct E1 as [u [_ E1]]; apply bind_ok in E1; destruct E1 as [p [_ E1]];
    apply bind_ok in E1; destruct E1 as [vals [_ E1]]; apply bind_ok in E1; destruct E1 as [ll [_ E1]];
    apply bind_ok in E1; destruct E1 as [mp [Em E1]]; assert (sv1 = mkSolidV (sv_points sv ++ [p]) (sv_uid sv ++ [u]) mp vals) as -> by congruence;
    apply setz_nthz in Em; destruct Em as [Lm _]; split; [|auto]; intros w Hw; cbn [sv_map sv_uid] in *; rewrite Lm in Hw; apply nthz_app_l; now apply OR).
  1,2: (apply bind_ok in E1; destruct E1 as [p [_ E1]]; apply bind_ok in E1; destruct E1 as [vals [_ E1]];
    assert (sv1 = mkSolidV (sv_points sv ++ [p]) (sv_uid sv ++ [lenz (sv_map sv)]) (sv_map sv ++ [[lenz (sv_points sv)]]) vals) as -> by congruence;
    destruct HV as [HV|HV]; [|congruence]; split;
    [intros w Hw; cbn [sv_map sv_uid] in *; rewrite lenz_app in Hw; change (lenz [_]) with 1 in Hw; apply nthz_snoc;
      destruct (Z.eq_dec w (lenz (sv_map sv))) as [->|N]; [right; auto|left; apply OR; lia]
    |left; cbn [sv_map sv_uid]; rewrite !lenz_app, HV; reflexivity]).
  - assert (sv' = sv1) as -> by congruence. auto.
  - destruct (contains l "VRTX") eqn:EC; [|assert (sv' = sv1) as -> by congruence; auto].
    eapply IH; [exact SI1|exact OR1| |eapply copies_last_tl; exact CL|exact E]. destruct HV1 as [HV1|HV1]; [now left|].
    right. exact (CL [] line (l :: ls) eq_refl HV1 [] l ls eq_refl (Forall_nil _) EC).
Qed.
Lemma tok_index_nonneg o ts i v : tok_index o ts i = Ok v -> 0 <= v.
Proof.
  unfold tok_index. intros E. apply bind_ok in E. destruct E as [t [_ E]]. apply bind_ok in E. destruct E as [w [_ E]].
  assert (v = sub32 w o) as -> by congruence. unfold sub32, wrap32, two32. apply Z.mod_pos_bound. lia.
Qed.
Lemma tetra_inv tp n (st : SolidT F) l1 l2 st' : Forall (fun e => quad_in n (fst e)) (st_tets st) -> lso_tetra F tp n st l1 l2 = Ok st' ->
  Forall (fun e => quad_in n (fst e)) (st_tets st').
Proof.
  intros H E. unfold lso_tetra in E. apply bind_ok in E. destruct E as [a [Ea E]]. apply bind_ok in E. destruct E as [b [Eb E]].
  apply bind_ok in E. destruct E as [c [Ec E]]. apply bind_ok in E. destruct E as [d [Ed E]].
  apply tok_index_nonneg in Ea, Eb, Ec, Ed.
  destruct ((a <? n) && (b <? n) && (c <? n) && (d <? n)) eqn:B; [|discriminate].
  apply andb_true_iff in B. destruct B as [B Bd]. apply andb_true_iff in B. destruct B as [B Bc]. apply andb_true_iff in B. destruct B as [Ba Bb].
  apply Z.ltb_lt in Ba, Bb, Bc, Bd. apply bind_ok in E. destruct E as [vals [_ E]]. apply bind_ok in E. destruct E as [name [_ E]].
  assert (st' = mkSolidT (st_tets st ++ [((a, b, c, d), name)]) vals) as -> by congruence. cbn [st_tets]. apply Forall_app. split; [assumption|].
  constructor; [|constructor]. cbn [fst]. unfold quad_in. cbn [quad_list]. repeat (apply Forall_cons; [lia|]). constructor.
Qed.
Lemma tetras_inv tp n : forall k ls, (List.length ls <= k)%nat -> forall (st : SolidT F) line b st' l' s', Forall (fun e => quad_in n (fst e)) (st_tets st) ->
  lso_tetras F tp n st line b ls = Ok (st', l', s') -> Forall (fun e => quad_in n (fst e)) (st_tets st').
Proof.
  induction k as [|k IH]; intros ls HL st line b st' l' s' H E.
  - destruct ls; [|cbn [List.length] in HL; lia]. cbn [lso_tetras] in E. apply bind_ok in E. destruct E as [st1 [E1 E]].
    assert (st1 = st') as <- by congruence. eapply tetra_inv; eassumption.
  - destruct ls as [|l2 ls]; cbn [lso_tetras] in E; apply bind_ok in E; destruct E as [st1 [E1 E]]; pose proof (tetra_inv _ _ _ _ _ _ H E1) as H1.
    + assert (st1 = st') as <- by congruence. assumption.
    + destruct ls as [|l ls]; [assert (st1 = st') as <- by congruence; assumption|].
      destruct (starts_with l "TETRA"); [|assert (st1 = st') as <- by congruence; assumption].
      eapply (IH ls); [cbn [List.length] in HL; lia|exact H1|exact E].
Qed.
Lemma blocks_from vp tp fuel : forall sv st ss line s rs bad, lso_blocks F vp tp fuel sv st ss line s = Ok (rs, bad) ->
  Forall (fun r => exists name bd, build_block F vp tp sv st ss name = Ok (r, bd)) rs.
Proof.
  induction fuel as [|fuel IH]; intros sv st ss line s rs bad E; [discriminate|]. cbn [lso_blocks] in E.
  destruct (starts_with line "MODEL_REGION"); [|assert (rs = []) as -> by congruence; constructor].
  apply bind_ok in E. destruct E as [name [_ E]]. apply bind_ok in E. destruct E as [[r bd] [Eb E]].
  destruct (getline line s) as [[g l1] s1]. apply bind_ok in E. destruct E as [[rs' bad'] [E' E]].
  assert (rs = r :: rs') as -> by congruence. constructor; [eauto|]. eapply IH; exact E'.
Qed.

(** Two surfaces have no triangle in common. *)
Definition apart (surfs : list (LSurfR F)) : Prop :=
  forall k k' h h' t t', nthz surfs k = Some h -> nthz surfs k' = Some h' -> In t (tris_uv h) -> In t' (tris_uv h') -> same_corners t t' -> k = k'.

Lemma lso_relations text m' r k h : copies_last (pending (open_text text)) -> read_lso F text = Ok m' -> apart (i_surfs m') ->
  In r (i_blocks m') -> nthz (i_surfs m') k = Some h ->
  (In k (r_bounds r) <-> 0 < count_on r h /\ count_on r h / lenz (h_tris h) = 1) /\
  (In k (r_internals r) <-> 0 < count_on r h /\ count_on r h / lenz (h_tris h) = 2).
Proof.
  intros CL E AP Hr Hk. unfold read_lso in E. destruct (goto_if _ (open_text text)) as [[l0|] s0] eqn:E0; [|discriminate].
  apply goto_if_suffix in E0. apply suffix_tl in E0.
  apply bind_ok in E. destruct E as [[title s1] [E1 E]]. apply read_header_suffix in E1. cbn [snd] in E1.
  apply bind_ok in E. destruct E as [[crs s2] [E2 E]]. apply read_CRS_suffix in E2. cbn [snd] in E2.
  apply bind_ok in E. destruct E as [[vp s3] [E3 E]]. apply read_prop_header_suffix in E3. cbn [snd] in E3.
  apply bind_ok in E. destruct E as [[tp s4] [E4 E]]. apply read_prop_header_suffix in E4. cbn [snd] in E4.
  assert (CL4 : copies_last (pending s4)) by (do 5 (eapply copies_last_suffix; [eassumption|]); exact CL). clear E0 E1 E2 E3 E4 CL.
  unfold lso_body in E. apply bind_ok in E. destruct E as [[line s5] [E5 E]]. apply goto_keywords_suffix in E5.
  apply (copies_last_suffix _ _ E5) in CL4.
  apply bind_ok in E. destruct E as [[[sv line2] s6] [E6 E]].
  assert (solid_inv sv /\ ordered sv) as [SI OR].
  { eapply vertices_inv; [apply empty_inv| |left; reflexivity|exact CL4|exact E6]. intros u Hu. cbn [sv_map] in Hu. change (lenz []) with 0 in Hu. lia. }
  clear E6. apply bind_ok in E. destruct E as [[line3 s7] [_ E]].
  apply bind_ok in E. destruct E as [[[st line4] s8] [E7 E]].
  assert (TI : Forall (fun e => quad_in (lenz (sv_points sv)) (fst e)) (st_tets st)) by (eapply tetras_inv; [apply le_n| |exact E7]; constructor).
  clear E7. apply bind_ok in E. destruct E as [[line5 s9] [_ E]]. apply bind_ok in E. destruct E as [[line5' s10] [_ E]].
  destruct (getline line5' s10) as [[g line6] s11]. apply bind_ok in E. destruct E as [[[[ss hs] line7] s12] [E8 E]].
  assert (SF : surf_inv sv (st_tets st) ss) by (eapply surfaces_inv; [exact SI|exact OR|exact TI|apply no_surf_inv|exact E8]). clear E8.
  apply bind_ok in E. destruct E as [[bs bad] [E9 E]].
  match type of E with Ok ?x = _ => assert (m' = x) as -> by congruence end. clear E. cbn [i_blocks i_surfs] in *.
  apply blocks_from in E9. rewrite Forall_forall in E9. destruct (E9 r Hr) as [name [bd EB]].
  assert (EC : facets_on (ss_facets ss) (block_tets (st_tets st) name) k = count_on r h).
  { eapply build_block_count; [exact SI|exact TI|reflexivity|exact SF|exact EB|exact Hk|]. intros k' h' t t' H1 H2 H3 H4. symmetry. eapply AP; eassumption. }
  assert (EB' : r_bounds r = related F (ss_facets ss) (block_tets (st_tets st) name) (ss_surfs ss) 1
     /\ r_internals r = related F (ss_facets ss) (block_tets (st_tets st) name) (ss_surfs ss) 2).
  { clear -EB. unfold build_block in EB. apply bind_ok in EB. destruct EB as [[us ts] [_ EB]]. apply bind_ok in EB. destruct EB as [va [_ EB]].
    apply bind_ok in EB. destruct EB as [ta [_ EB]]. match type of EB with Ok (?x, _) = _ => assert (r = x) as -> by congruence end. split; reflexivity. }
  destruct EB' as [-> ->]. rewrite !related_ok, EC. split; (split; [intros [h0 [H1 H2]]; assert (h0 = h) as -> by congruence; exact H2|intros H; exists h; auto]).
Qed.
End FileRel.
