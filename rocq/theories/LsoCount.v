(** * Relations of blocks and surfaces of a saved model, once loaded. *)
From Coq Require Import ZArith List Lia Bool Ascii String Permutation.
From Verif Require Import Base Text TextFacts GocadModel MeshModel TsModel Spec GocadFacts TsFacts LsoModel LsoFacts LsoRead LsoRound LsoFile LsoWhole LsoTrip StreamFacts LsoRel.
Import ListNotations.
Local Open Scope string_scope.
Local Open Scope list_scope.
Local Open Scope Z_scope.

(** ** Counting facets triangle by triangle *)

(** Number of facets of [G] with the same corners as [t]. *)
Definition facets_at (G : list tri) (t : tri) : Z := lenz (filter (fun g => same_cornersb g t) G).
Definition all_different (T : list tri) : Prop := ForallOrdPairs (fun s t => ~ same_corners s t) T.

Lemma same_cornersb_ok s t : same_cornersb s t = true <-> same_corners s t.
Proof. unfold same_cornersb. rewrite tri_eqb_eq. apply sort3_eq. Qed.
Lemma filter_or {A} (f g : A -> bool) l : (forall x, f x = true -> g x = true -> False) ->
  lenz (filter (fun x => f x || g x) l) = lenz (filter f l) + lenz (filter g l).
Proof.
  intros H. induction l as [|x l IH]; [reflexivity|]. cbn [filter]. specialize (H x). destruct (f x), (g x); cbn [orb]; rewrite ?lenz_cons, IH; try lia; exfalso; auto.
Qed.
Lemma count_sum G T : all_different T -> lenz (filter (on_surface T) G) = fold_right (fun t n => facets_at G t + n) 0 T.
Proof.
  induction 1 as [|t T H HD IH]; cbn [fold_right].
  - clear. induction G as [|g G IH]; [reflexivity|exact IH].
  - rewrite <- IH. unfold facets_at. rewrite <- (filter_or (fun g => same_cornersb g t) (on_surface T)); [reflexivity|].
    intros g H1 H2. apply same_cornersb_ok in H1. apply on_surface_ok in H2. destruct H2 as [t' [Ht' H2]]. rewrite Forall_forall in H.
    apply (H t' Ht'). unfold same_corners in *. now rewrite <- H1.
Qed.
Lemma count_const G T n : all_different T -> (forall t, In t T -> facets_at G t = n) -> lenz (filter (on_surface T) G) = n * lenz T.
Proof.
  intros HD H. rewrite count_sum by assumption. clear HD. induction T as [|t T IH]; [unfold lenz; cbn; lia|]. cbn [fold_right].
  rewrite lenz_cons, IH, H; [lia|now left|intros; apply H; now right].
Qed.

(** Number of facets of the tetrahedra of a loaded block at each triangle of a loaded surface. *)
Section Exact.
Context {F : Num}.
Lemma relation_exact text (m' : LsoIn F) r k h n : copies_last (pending (open_text text)) -> read_lso F text = Ok m' -> apart (i_surfs m') ->
  In r (i_blocks m') -> nthz (i_surfs m') k = Some h -> h_tris h <> [] -> all_different (tris_uv h) ->
  (forall t, In t (tris_uv h) -> facets_at (facets_uv r) t = n) ->
  (In k (r_bounds r) <-> n = 1) /\ (In k (r_internals r) <-> n = 2).
Proof.
  intros CL E AP Hr Hk HT HD HC. destruct (lso_relations text m' r k h CL E AP Hr Hk) as [-> ->].
  unfold count_on. rewrite (count_const _ _ n HD HC).
  assert (lenz (tris_uv h) = lenz (h_tris h)) as -> by apply lenz_map.
  assert (0 < lenz (h_tris h)) by (destruct (h_tris h); [congruence|rewrite lenz_cons; pose proof (lenz_nonneg l); lia]).
  rewrite Z.div_mul by lia. split; (split; [lia|]; intros ->; split; lia).
Qed.
End Exact.

(** ** The vertex lines of a written file *)
Lemma run_in (S : list bytes) T R : forall b x c, S ++ T :: R = b ++ x :: c -> contains T "VRTX" = false ->
  Forall (fun y => contains y "VRTX" = true) b -> contains x "VRTX" = true -> In x S.
Proof.
  induction S as [|s S IH]; intros [|y b] x c E HT HB HX; cbn [app] in E.
  - assert (T = x) as -> by congruence. congruence.
  - inversion_clear HB. assert (T = y) as -> by congruence. congruence.
  - left. congruence.
  - inversion_clear HB. right. apply (IH b x c); try assumption. congruence.
Qed.
Lemma copies_last_blocks A S T R :
  Forall (fun x => starts_with x "SHARED" = false) A -> Forall (fun x => starts_with x "SHARED" = true) S ->
  contains T "VRTX" = false -> Forall (fun x => starts_with x "SHARED" = false) (T :: R) -> copies_last (A ++ S ++ T :: R).
Proof.
  intros HA HS HT HR. induction HA as [|x A Hx HA IH]; cbn [app].
  - induction HS as [|s S Hs HS IH]; cbn [app].
    + intros a l b E Hl. exfalso. rewrite Forall_forall in HR. assert (Hi : In l (T :: R)) by (rewrite E; apply in_or_app; right; now left).
      specialize (HR l Hi). congruence.
    + intros [|y a] l b E Hl; cbn [app] in E.
      * assert (b = S ++ T :: R) as -> by congruence. intros b' x c E' HB HX. rewrite Forall_forall in HS. apply HS.
        eapply run_in; eassumption.
      * apply (IH a l b); [congruence|assumption].
  - intros [|y a] l b E Hl; cbn [app] in E.
    + assert (x = l) as -> by congruence. congruence.
    + apply (IH a l b); [congruence|assumption].
Qed.

Section Saved.
Context {F : Num} (HF : num_ok F) (m : LModel F) (sides : Z -> Z -> option bool) (O : lso_ok m sides).
Let N := lenz (l_uv m).

Lemma written_copies_last text : write_lso m sides = Ok text -> copies_last (pending (open_text text)).
Proof.
  intros E. destruct (lso_lines_ok m sides O) as [ps [rws [atoms [NUM [EL HT]]]]]. pose proof (lso_are_lines HF m sides O ps rws atoms NUM HT) as HL.
  unfold write_lso in E. rewrite EL in E. unfold rmap in E. cbn [bind] in E. match type of E with Ok (unlines ?l) = _ => assert (text = unlines l) as -> by congruence end. clear E EL.
  rewrite open_unlines by exact HL. clear HL. cbn [pending].
  pose proof (entries_some m sides O rws) as HE. destruct (entries m rws) as [|e es]; [congruence|]. clear HE. inversion_clear HT as [|? ? HQ _].
  cbn [flat_map tet_lines app].
  match goal with |- copies_last (?x1 :: ?x2 ++ ?x3 ++ (?v ++ ?s) ++ ?t :: ?r) => replace (x1 :: x2 ++ x3 ++ (v ++ s) ++ t :: r) with ((x1 :: x2 ++ x3 ++ v) ++ s ++ t :: r)
    by (cbn [app]; rewrite <- !app_assoc; reflexivity) end.
  apply copies_last_blocks.
  - constructor; [reflexivity|]. apply Forall_app. split; [destruct (l_title m); repeat (apply Forall_cons; [reflexivity|]); constructor|].
    apply Forall_app. split; [repeat (apply Forall_cons; [reflexivity|]); constructor|]. clear. generalize 0.
    induction ps as [|p ps IH]; intros z; cbn [lso_vrtx_lines]; constructor; [reflexivity|apply IH].
  - clear. generalize (lenz (l_uv m) + 1). induction atoms as [|a atoms IH]; intros z; cbn [shared_lines]; constructor; [reflexivity|apply IH].
  - apply (tetra_no_vrtx m). eapply Forall_impl; [|exact HQ]. cbn beta. lia.
  - constructor; [reflexivity|]. constructor; [reflexivity|]. apply Forall_app. split.
    + apply Forall_flat_map'. intros e' _. cbn [tet_lines]. repeat (apply Forall_cons; [reflexivity|]). constructor.
    + constructor; [reflexivity|]. apply Forall_app. split.
      * apply Forall_flat_map'. intros s _. unfold sect_lines. constructor; [reflexivity|]. apply Forall_flat_map'. intros f _. unfold face_lines.
        constructor; [reflexivity|]. constructor; [reflexivity|]. apply Forall_map, Forall_forall. intros t _. reflexivity.
      * apply Forall_app. split; [|repeat constructor]. rewrite map_map. apply Forall_map, Forall_forall. intros b _. reflexivity.
Qed.

(** Facets of a saved block, triangles of a saved surface: unique vertices of the corners. *)
Definition block_facets (b : LBlock F) : list tri := map (corners_uv (k_uv b)) (flat_map facets_of (k_tets b)).
Definition surface_triangles (s : LSurfW) : list tri := map (corners_uv (f_uv s)) (f_tris s).

Lemma order_uv (b : LBlock F) order uvs v i : Forall2 (fun v u => nthz (k_uv b) v = Some u) order uvs -> nthz order i = Some v -> at_ uvs i = at_ (k_uv b) v.
Proof.
  intros H Hi. destruct (Forall2_nthz _ _ _ H i v Hi) as [u [Hu Hv]]. now rewrite (at_some _ _ _ Hu), (at_some _ _ _ Hv).
Qed.
Lemma block_like_facets (b : LBlock F) r : block_like b r -> facets_uv r = block_facets b.
Proof.
  intros [_ [order [_ [_ [_ [HU HT]]]]]]. unfold facets_uv, block_facets. induction HT as [|q q' l l' Hq _ IH]; [reflexivity|].
  cbn [flat_map]. rewrite !map_app, IH. f_equal. destruct q as [[[x y] z] w], q' as [[[x' y'] z'] w']. cbn [quad_list] in Hq.
  inversion_clear Hq as [|? ? ? ? Hx H']. inversion_clear H' as [|? ? ? ? Hy H]. inversion_clear H as [|? ? ? ? Hz H']. inversion_clear H' as [|? ? ? ? Hw _].
  cbn [facets_of map corners_uv].
  now rewrite !(order_uv b order _ _ _ HU Hx), !(order_uv b order _ _ _ HU Hy), !(order_uv b order _ _ _ HU Hz), !(order_uv b order _ _ _ HU Hw).
Qed.
Lemma surface_from_tris name T (h : LSurfR F) : surface_from m name T h -> tris_uv h = T.
Proof.
  intros [_ [_ [_ [_ HT]]]]. unfold tris_uv. induction HT as [|t t' l l' Ht _ IH]; [reflexivity|]. cbn [map]. rewrite IH. f_equal.
  destruct t as [[x y] z], t' as [[x' y'] z']. cbn [tri_list] in Ht.
  inversion_clear Ht as [|? ? ? ? Hx H']. inversion_clear H' as [|? ? ? ? Hy H]. inversion_clear H as [|? ? ? ? Hz _]. cbn [corners_uv].
  now rewrite (at_some _ _ _ Hx), (at_some _ _ _ Hy), (at_some _ _ _ Hz).
Qed.
Lemma stris_ok i s : lsurf_of m i = Ok s -> good_lsurf N s -> stris m i = surface_triangles s.
Proof.
  intros E G. unfold stris, sfun, surface_triangles. rewrite E. apply map_ext_in. intros [[x y] z] Ht.
  pose proof (gl_in _ _ G) as HI. rewrite Forall_forall in HI. specialize (HI _ Ht). cbn [tri_list] in HI.
  inversion_clear HI as [|? ? Hx H']. inversion_clear H' as [|? ? Hy H]. inversion_clear H as [|? ? Hz _]. cbn [uvt corners_uv].
  destruct (uvz_range N s x G Hx) as [Ex _]. destruct (uvz_range N s y G Hy) as [Ey _]. destruct (uvz_range N s z G Hz) as [Ez _].
  now rewrite (at_some _ _ _ Ex), (at_some _ _ _ Ey), (at_some _ _ _ Ez).
Qed.

(** The surfaces saved, in order, and what is loaded. *)
Lemma lso_saved_named : exists text (m' : LsoIn F),
  write_lso m sides = Ok text /\ read_lso F text = Ok m' /\
  i_title m' = option_map normalise (l_title m) /\ i_nuv m' = N /\
  Forall2 (fun b r => block_like b r /\ r_vattrs r = [] /\ r_tattrs r = []) (l_blocks m) (i_blocks m') /\
  Forall2 (fun i h => exists s name, lsurf_of m i = Ok s /\ named_by (collections m) i name /\
             surface_from m (normalise name) (surface_triangles s) h)
          (all_ids m) (i_surfs m') /\
  (forall j h, nthz (i_surfs m') j = Some h -> exists a b, In (h_name h, a, b) (i_horizons m') /\ a <= j < b) /\
  (forall e, In e (i_horizons m') -> exists c, In c (collections m) /\ fst (fst e) = normalise (g_name c)).
Proof.
  destruct (lso_round_named HF m sides O) as [text [ss [hs [rs [bad [EW [ER [HB [HS [HH HNM]]]]]]]]]]. exists text. eexists. split; [exact EW|]. split; [exact ER|].
  cbn [i_title i_nuv i_blocks i_surfs i_horizons]. split; [reflexivity|]. split; [reflexivity|]. split; [exact HB|]. split; [|split; [exact HH|exact HNM]].
  pose proof (named_faces_ok m (collections m) [] 1) as HNF. fold (all_ids m) (secs m) in HNF.
  assert (HI : Forall (fun i => In i (flat_map g_items (collections m))) (all_ids m)) by (apply Forall_forall; intros i Hi; now apply fresh_in in Hi).
  pose proof (good_items m sides O) as HG.
  assert (HGI : forall i, In i (flat_map g_items (collections m)) -> good_item m i).
  { intros i Hi. apply in_flat_map in Hi. destruct Hi as [c [Hc Hi]]. rewrite Forall_forall in HG. specialize (HG c Hc). rewrite Forall_forall in HG. now apply HG. }
  clear -N HNF HS HI HGI. revert HI. generalize dependent (ss_surfs ss). clear ss.
  induction HNF as [|i e l l' [H1 [pre [c [post [H2 [H3 [H4 H5]]]]]]] HNF IH]; intros sf HS HI; inversion_clear HS; constructor.
  - inversion_clear HI as [|? ? Hi _]. destruct (HGI i Hi) as [s [Es Gs]]. exists s, (g_name c). split; [assumption|]. split.
    + exists pre, c, post. auto.
    + rewrite H1, H5 in H. now rewrite (stris_ok i s Es Gs) in H.
  - inversion_clear HI. now apply IH.
Qed.
Lemma lso_saved : exists text (m' : LsoIn F),
  write_lso m sides = Ok text /\ read_lso F text = Ok m' /\
  i_title m' = option_map normalise (l_title m) /\ i_nuv m' = N /\
  Forall2 (fun b r => block_like b r /\ r_vattrs r = [] /\ r_tattrs r = []) (l_blocks m) (i_blocks m') /\
  Forall2 (fun i h => exists s name, lsurf_of m i = Ok s /\ named_by (collections m) i name /\
             surface_from m (normalise name) (surface_triangles s) h)
          (all_ids m) (i_surfs m') /\
  (forall j h, nthz (i_surfs m') j = Some h -> exists a b, In (h_name h, a, b) (i_horizons m') /\ a <= j < b).
Proof.
  destruct lso_saved_named as (text & m' & K1 & K2 & K3 & K4 & K5 & K6 & K7 & _). exists text, m'. auto 10.
Qed.

(** Saved surfaces without triangle in common. *)
Definition saved_apart : Prop :=
  forall s s' t t', In s (l_surfs m) -> In s' (l_surfs m) -> In t (surface_triangles s) -> In t' (surface_triangles s') -> same_corners t t' -> f_id s = f_id s'.
Lemma lsurf_id i s : lsurf_of m i = Ok s -> In s (l_surfs m) /\ f_id s = i.
Proof.
  unfold lsurf_of. destruct (find _ (l_surfs m)) as [s0|] eqn:E; [|discriminate]. intros [= <-]. apply find_some in E. destruct E as [H1 H2].
  apply Z.eqb_eq in H2. auto.
Qed.
Lemma loaded_apart (sf : list (LSurfR F)) : saved_apart ->
  Forall2 (fun i h => exists s name, lsurf_of m i = Ok s /\ named_by (collections m) i name /\ surface_from m (normalise name) (surface_triangles s) h) (all_ids m) sf ->
  apart sf.
Proof.
  intros SA HS k k' h h' t t' Hk Hk' Ht Ht' HC.
  assert (HS' : Forall2 (fun h i => exists s name, lsurf_of m i = Ok s /\ named_by (collections m) i name /\ surface_from m (normalise name) (surface_triangles s) h) sf (all_ids m))
    by (clear -HS; induction HS; constructor; auto).
  destruct (Forall2_nthz _ _ _ HS' k h Hk) as [i [Hi [s [nm [Es [_ Fs]]]]]]. destruct (Forall2_nthz _ _ _ HS' k' h' Hk') as [i' [Hi' [s' [nm' [Es' [_ Fs']]]]]].
  rewrite (surface_from_tris _ _ _ Fs) in Ht. rewrite (surface_from_tris _ _ _ Fs') in Ht'.
  destruct (lsurf_id _ _ Es) as [I1 I2]. destruct (lsurf_id _ _ Es') as [I1' I2'].
  pose proof (SA s s' t t' I1 I1' Ht Ht' HC) as EI. rewrite I2, I2' in EI. rewrite <- EI in Hi'.
  pose proof (fresh_nodup [] (flat_map g_items (collections m))) as ND. fold (all_ids m) in ND. clear -ND Hi Hi'.
  revert k k' Hi Hi'. induction ND as [|x l Hx ND IH]; intros k k' Hi Hi'; [apply nthz_in in Hi; destruct Hi|].
  rewrite nthz_cons in Hi, Hi'. destruct (Z.eqb_spec k 0), (Z.eqb_spec k' 0); subst.
  - reflexivity.
  - exfalso. apply Hx. assert (x = i) as -> by congruence. eapply nthz_in; exact Hi'.
  - exfalso. apply Hx. assert (x = i) as -> by congruence. eapply nthz_in; exact Hi.
  - specialize (IH _ _ Hi Hi'). lia.
Qed.
End Saved.
