(** * Property C127: which structural models accepted by the .lso export are exported. *)
From Coq Require Import ZArith List Lia Bool Ascii String.
From Verif Require Import Base Text TextFacts GocadModel MeshModel TsModel Spec GocadFacts TsFacts LsoModel LsoFacts LsoRead LsoRound LsoFile LsoWhole LsoTrip PropsLso.
From Verif Require Import ExNum ExCheck.
Import ListNotations.
Local Open Scope string_scope.
Local Open Scope list_scope.
Local Open Scope Z_scope.

(** ** Specification *)
(** What the classes of OpenGeode guarantee of a model, with or without cells: the unique vertices are those of the blocks, the cells join vertices of
    their mesh, the items of the collections are surfaces of the model, and the vertices can be numbered. *)
Record sound_model {F} (m : LModel F) : Prop := {
  so_consistent : consistent m;
  so_fits : lenz (l_uv m) + nb_others (l_uv m) < two32;
  so_tets : Forall (fun b => Forall (fun t => Forall (fun v => 0 <= v < lenz (k_points b)) (quad_list t)) (k_tets b)) (l_blocks m);
  so_tris : Forall (fun s => Forall (fun t => Forall (fun v => 0 <= v < lenz (f_uv s)) (tri_list t)) (f_tris s)) (l_surfs m);
  so_uv : Forall (fun s => Forall (fun u => 0 <= u < lenz (l_uv m)) (f_uv s)) (l_surfs m);
  so_items : forall i, In i (flat_map g_items (collections m)) -> exists s, In s (l_surfs m) /\ f_id s = i
}.
(** The first boundary of a block has a side and is in a horizon, a fault or a model boundary. *)
Definition bounded {F} (m : LModel F) (sides : Z -> Z -> option bool) (b : LBlock F) : Prop :=
  exists s r side, k_bounds b = s :: r /\ sides (k_id b) s = Some side /\ In s (flat_map g_items (collections m)).

Lemma saveable_iff {F} (m : LModel F) : lso_saveable m = true <-> Forall (fun s => f_tris s <> []) (l_surfs m) /\ Forall (fun b => k_tets b <> []) (l_blocks m).
Proof.
  unfold lso_saveable. rewrite andb_true_iff, !forallb_forall, !Forall_forall.
  split; intros [H1 H2]; split; intros x Hx.
  - intros E. apply H1 in Hx. rewrite E in Hx. discriminate.
  - intros E. apply H2 in Hx. rewrite E in Hx. discriminate.
  - apply negb_true_iff, Z.eqb_neq. apply H1 in Hx. destruct (f_tris x); [congruence|]. unfold lenz. cbn [List.length]. lia.
  - apply negb_true_iff, Z.eqb_neq. apply H2 in Hx. destruct (k_tets x); [congruence|]. unfold lenz. cbn [List.length]. lia.
Qed.
Lemma uvs_rows {F} (m : LModel F) uvs : forall v nb x, write_uvs m v nb uvs = Ok x -> Forall (fun l => l <> []) uvs.
Proof.
  induction uvs as [|mvs r IH]; intros v nb x H; [constructor|]. cbn [write_uvs] in H. apply bind_ok in H as [i [E H]]. constructor; [destruct mvs; [discriminate|discriminate]|].
  apply bind_ok in H as [? [_ H]]. apply bind_ok in H as [? [_ H]]. apply bind_ok in H as [? [_ H]]. apply bind_ok in H as [? [E' _]]. eapply IH; exact E'.
Qed.
Section Accept.
Context {F : Num} (m : LModel F) (sides : Z -> Z -> option bool) (SO : sound_model m) (AC : lso_saveable m = true).
Lemma accept_items : lenz (l_uv m) < two32 -> Forall (fun c => Forall (good_item m) (g_items c)) (collections m).
Proof.
  intros HN. apply Forall_forall. intros c Hc. apply Forall_forall. intros i Hi.
  destruct (so_items m SO i) as [s [Hs E]]; [apply in_flat_map; exists c; auto|].
  destruct (lsurf_found m i) as [s' [E' [Hs' _]]]; [apply in_map_iff; exists s; auto|]. exists s'. split; [assumption|].
  apply saveable_iff in AC as [A1 _]. pose proof (so_tris m SO) as A2. pose proof (so_uv m SO) as A3. rewrite Forall_forall in A1, A2, A3. split; auto.
Qed.
Lemma accept_blocks : Forall good_block (l_blocks m).
Proof.
  apply saveable_iff in AC as [_ A1]. pose proof (so_tets m SO) as A2. rewrite Forall_forall in *. intros b Hb. split; auto.
Qed.
Lemma surfaces_all : lenz (l_uv m) < two32 -> exists sl1 ex1 n1 sl2 ex2 n2 sl3 n3,
  write_surfaces m (l_horizons m) [] 1 = Ok (sl1, ex1, n1) /\ write_surfaces m (l_faults m) ex1 n1 = Ok (sl2, ex2, n2) /\
  write_surfaces m (l_mbounds m) ex2 n2 = Ok (sl3, nums 1 (fresh [] (flat_map g_items (collections m))), n3).
Proof.
  intros HN. pose proof (write_surfaces_ok m HN (collections m) [] 1 (accept_items HN)) as W. cbn [map app] in W. unfold collections in W at 1. rewrite <- write_surfaces_app in W.
  apply bind_ok in W as [[[l1 e1] n1] [E1 W]]. apply bind_ok in W as [[[l2 e2] n2] [E2 W]]. rewrite <- write_surfaces_app in E2.
  apply bind_ok in E2 as [[[l3 e3] n3] [E3 W2]]. apply bind_ok in W2 as [[[l4 e4] n4] [E4 W2]]. assert (e4 = e2) as -> by congruence.
  assert (e2 = nums 1 (fresh [] (flat_map g_items (collections m)))) as -> by congruence.
  repeat eexists; eassumption.
Qed.
Lemma region_iff b : (exists l, region_line_of sides (nums 1 (fresh [] (flat_map g_items (collections m)))) b = Ok l) <-> bounded m sides b.
Proof.
  unfold region_line_of, bounded. split.
  - intros [l H]. apply bind_ok in H as [s [E1 H]]. apply bind_ok in H as [side [E2 H]]. apply bind_ok in H as [n [E3 _]].
    unfold front in E1. destruct (k_bounds b) as [|s0 r]; [discriminate|]. assert (s0 = s) as -> by congruence. exists s, r, side. split; [reflexivity|].
    split; [destruct (sides (k_id b) s); congruence|]. destruct (find _ _) as [e|] eqn:Ef; [|discriminate]. apply find_some in Ef as [Ef1 Ef2]. apply Z.eqb_eq in Ef2. subst s.
    apply (in_map fst) in Ef1. rewrite nums_fst in Ef1. apply fresh_in in Ef1. tauto.
  - intros [s [r [side [E1 [E2 E3]]]]]. rewrite E1. unfold front. cbn [bind]. rewrite E2. cbn [bind].
    destruct (find_num 1 (fresh [] (flat_map g_items (collections m))) s) as [k [Ek _]]; [lia|apply fresh_in; split; [assumption|intros []]|]. rewrite Ek. cbn [bind]. eexists. reflexivity.
Qed.
Lemma mapM_iff {A B} (f : A -> res B) l : (exists r, mapM f l = Ok r) <-> Forall (fun a => exists b, f a = Ok b) l.
Proof.
  induction l as [|a l IH]; cbn [mapM]; [split; [constructor|eexists; reflexivity]|]. split.
  - intros [r H]. apply bind_ok in H as [b [E H]]. apply bind_ok in H as [bs [E' _]]. constructor; [now exists b|]. apply IH. now exists bs.
  - intros H. inversion_clear H as [|? ? [b E] H1]. apply IH in H1 as [bs E']. rewrite E, E'. cbn [bind]. eexists. reflexivity.
Qed.
Theorem C127_exported_iff :
  ((exists text, write_lso m sides = Ok text) <-> Forall (fun l => l <> []) (l_uv m) /\ Forall (bounded m sides) (l_blocks m)) /\
  forall lines b, lso_lines m sides = Ok lines -> In b (l_blocks m) -> In (lit "# CTETRA " ++ k_name b ++ lit " none none none none") lines.
Proof.
  pose proof (so_consistent m SO) as C. pose proof (so_fits m SO) as fits.
  assert (HS : Forall (fun l => l <> []) (l_uv m) -> lenz (l_uv m) < two32) by (intros HN; pose proof (nb_others_nonneg _ HN); lia).
  assert (T : Forall (fun l => l <> []) (l_uv m) -> exists ls rws atoms tls, write_vertices m = Ok (ls ++ shared_lines (add32 (lenz (l_uv m)) 1) atoms, rws) /\ write_tetrahedra rws m = Ok tls /\
     forall b, In b (l_blocks m) -> In (lit "# CTETRA " ++ k_name b ++ lit " none none none none") tls).
  { intros HN. destruct (uvs_total m C HN fits) as [ls [rws [atoms [ps [E [NUM _]]]]]]. destruct (write_tetrahedra_ok m C HN ps rws atoms NUM accept_blocks) as [WT _].
    exists ls, rws, atoms. eexists. split; [unfold write_vertices; cbn zeta; rewrite E; reflexivity|]. split; [exact WT|]. intros b Hb.
    apply saveable_iff in AC as [_ A]. rewrite Forall_forall in A. specialize (A b Hb). destruct (k_tets b) as [|t ts] eqn:Et; [congruence|].
    apply in_flat_map. exists (qn rws b t, k_name b). split; [|right; now left]. unfold entries. apply in_flat_map. exists b. split; [assumption|]. rewrite Et. now left. }
  split.
  - split.
    + intros [text H]. unfold write_lso, rmap in H. destruct (lso_lines m sides) as [lines| | |] eqn:E; try discriminate. clear H. unfold lso_lines in E.
      apply bind_ok in E as [[vls rws] [E1 E]].
      assert (HN : Forall (fun l => l <> []) (l_uv m)) by (unfold write_vertices in E1; cbn zeta in E1; apply bind_ok in E1 as [? [E1 _]]; eapply uvs_rows; exact E1).
      split; [assumption|]. apply bind_ok in E as [tls [_ E]]. destruct (surfaces_all (HS HN)) as [sl1 [ex1 [n1 [sl2 [ex2 [n2 [sl3 [n3 [W1 [W2 W3]]]]]]]]]]. rewrite W1 in E. cbn [bind] in E. rewrite W2 in E. cbn [bind] in E.
      rewrite W3 in E. cbn [bind] in E. apply bind_ok in E as [rls [E _]]. assert (X : exists r, mapM (region_line_of sides (nums 1 (fresh [] (flat_map g_items (collections m))))) (l_blocks m) = Ok r) by (now exists rls).
      apply mapM_iff in X. eapply Forall_impl; [|exact X]. intros b. apply region_iff.
    + intros [HN HB]. destruct (T HN) as [ls [rws [atoms [tls [E1 [E2 _]]]]]]. destruct (surfaces_all (HS HN)) as [sl1 [ex1 [n1 [sl2 [ex2 [n2 [sl3 [n3 [W1 [W2 W3]]]]]]]]]].
      assert (X : exists r, mapM (region_line_of sides (nums 1 (fresh [] (flat_map g_items (collections m))))) (l_blocks m) = Ok r) by (apply mapM_iff; eapply Forall_impl; [|exact HB]; intros b; apply region_iff).
      destruct X as [rls X]. unfold write_lso, rmap, lso_lines. rewrite E1. cbn [bind]. rewrite E2. cbn [bind]. rewrite W1. cbn [bind]. rewrite W2. cbn [bind]. rewrite W3. cbn [bind]. rewrite X. cbn [bind]. eexists. reflexivity.
  - intros lines b E Hb. unfold lso_lines in E. apply bind_ok in E as [[vls rws] [E1 E]].
    assert (HN : Forall (fun l => l <> []) (l_uv m)) by (pose proof E1 as E0; unfold write_vertices in E0; cbn zeta in E0; apply bind_ok in E0 as [? [E0 _]]; eapply uvs_rows; exact E0).
    destruct (T HN) as [ls [rws' [atoms [tls [E1' [E2 H]]]]]]. assert (rws' = rws) as -> by congruence. apply bind_ok in E as [tls' [E2' E]]. assert (tls' = tls) as -> by congruence.
    repeat (apply bind_ok in E as [? [_ E]]; repeat match type of E with (let '(_, _) := ?p in _) = _ => destruct p end).
    match type of E with Ok ?x = _ => assert (lines = x) as -> by congruence end. specialize (H b Hb). rewrite !in_app_iff. tauto.
Qed.
End Accept.
Print Assumptions C127_exported_iff.

(** Three models that are accepted but not exported: the first boundary of the second block is in no horizon, fault or model boundary; the second
    block has no boundary; a vertex of a surface is on no block. *)
Definition ex_other (uvs : list (list (Z * Z))) (bounds box : list Z) (tip : list LSurfW) : LModel ExNum :=
  mkLModel (F:=ExNum) (Some (lit "my model")) uvs
    [ex_west (lit "west"); mkLBlock (F:=ExNum) 2 (lit "east") [(0, 0, 1); (1, 0, 0); (1, 1, 1); (0, 1, 0)] [(0, 1, 2, 3)] [3; 1; 4; 2] bounds] (ex_lsurfs ++ tip)
    [mkLColl (lit "H1") [11]] [mkLColl (lit "big  fault") [14]] [mkLColl (lit "box") box].
Definition ex_tip : list LSurfW := [mkLSurfW 15 [(0, 1, 2)] [0; 2; 6]].
Ltac ranges := repeat (apply Forall_cons; [vm_compute; split; (discriminate || reflexivity)|]); apply Forall_nil.
Lemma ex_other_sound uvs bounds box tip : (uvs = ex_uvs /\ tip = [] \/ uvs = ex_uvs ++ [[]] /\ tip = ex_tip) -> (forall i, In i box -> In i [11; 12; 13; 14]) -> sound_model (ex_other uvs bounds box tip).
Proof.
  intros HU HB. split.
  - destruct HU as [[-> _]|[-> _]]; (apply consistentb_ok; [cbn; nodup| |reflexivity]; cbn [ex_other l_uv ex_uvs app]; repeat (apply Forall_cons; [nodup|]); constructor).
  - destruct HU as [[-> _]|[-> _]]; vm_compute; reflexivity.
  - cbn [ex_other l_blocks]. repeat (apply Forall_cons; [cbn [k_tets ex_west k_points]; repeat (apply Forall_cons; [cbn [quad_list]; ranges|]); apply Forall_nil|]). apply Forall_nil.
  - destruct HU as [[_ ->]|[_ ->]]; cbn [ex_other l_surfs ex_lsurfs ex_tip app]; (repeat (apply Forall_cons; [cbn [f_tris f_uv]; repeat (apply Forall_cons; [cbn [tri_list]; ranges|]); apply Forall_nil|]); apply Forall_nil).
  - destruct HU as [[-> ->]|[-> ->]]; cbn [ex_other l_surfs ex_lsurfs ex_tip app f_uv]; (repeat (apply Forall_cons; [ranges|]); apply Forall_nil).
  - intros i Hi. assert (X : In i [11; 12; 13; 14]).
    { cbn [ex_other collections l_horizons l_faults l_mbounds app flat_map g_items] in Hi. rewrite app_nil_r in Hi. destruct Hi as [<-|[<-|Hi]]; [cbn; tauto|cbn; tauto|auto]. }
    assert (Y : exists s, In s ex_lsurfs /\ f_id s = i).
    { cbn [In] in X. unfold ex_lsurfs. cbn [In]. destruct X as [<-|[<-|[<-|[<-|[]]]]].
      - eexists. split; [left; reflexivity|reflexivity].
      - eexists. split; [right; left; reflexivity|reflexivity].
      - eexists. split; [right; right; left; reflexivity|reflexivity].
      - eexists. split; [right; right; right; left; reflexivity|reflexivity]. }
    destruct Y as [s [Y1 Y2]]. exists s. split; [|assumption]. cbn [ex_other l_surfs]. apply in_or_app. now left.
Qed.
Definition refused {A} (r : res A) : bool := match r with Throw ExOutOfRange => true | _ => false end.
Definition undefined {A} (r : res A) : bool := match r with UB => true | _ => false end.
Lemma refused_ok {A} (r : res A) : refused r = true -> r = Throw ExOutOfRange.
Proof. destruct r as [|[]| |]; cbn; congruence. Qed.
Lemma undefined_ok {A} (r : res A) : undefined r = true -> r = UB.
Proof. destruct r as [|[]| |]; cbn; congruence. Qed.
Theorem C127_accepted_not_exported_refuted :
  (exists (m : LModel ExNum) sides, sound_model m /\ lso_saveable m = true /\ Forall (fun b => k_bounds b <> []) (l_blocks m) /\ write_lso m sides = Throw ExOutOfRange) /\
  (exists (m : LModel ExNum) sides, sound_model m /\ lso_saveable m = true /\ Forall (fun l => l <> []) (l_uv m) /\ write_lso m sides = UB) /\
  (exists (m : LModel ExNum) sides, sound_model m /\ lso_saveable m = true /\ Forall (bounded m sides) (l_blocks m) /\ write_lso m sides = UB).
Proof.
  split; [|split].
  - exists (ex_other ex_uvs [13; 11] [12; 11] []), ex_lsides. split; [apply ex_other_sound; [auto|cbn; tauto]|]. split; [reflexivity|].
    split; [cbn [ex_other l_blocks]; repeat (apply Forall_cons; [discriminate|]); apply Forall_nil|]. apply refused_ok. vm_compute. reflexivity.
  - exists (ex_other ex_uvs [] [12; 13; 11] []), ex_lsides. split; [apply ex_other_sound; [auto|cbn; tauto]|]. split; [reflexivity|].
    split; [cbn [ex_other l_uv ex_uvs]; repeat (apply Forall_cons; [discriminate|]); apply Forall_nil|]. apply undefined_ok. vm_compute. reflexivity.
  - exists (ex_other (ex_uvs ++ [[]]) [13; 11] [12; 13; 11] ex_tip), ex_lsides. split; [apply ex_other_sound; [auto|cbn; tauto]|]. split; [reflexivity|].
    split; [cbn [ex_other l_blocks]; repeat (apply Forall_cons; [do 3 eexists; split; [reflexivity|]; split; [reflexivity|]; cbn; tauto|]); apply Forall_nil|]. apply undefined_ok. vm_compute. reflexivity.
Qed.
Print Assumptions C127_accepted_not_exported_refuted.
Example C127_example : sound_model (ex_other ex_uvs [13; 11] [12; 13; 11] []) /\ lso_saveable (ex_other ex_uvs [13; 11] [12; 13; 11] []) = true /\
  Forall (fun l => l <> []) (l_uv (ex_other ex_uvs [13; 11] [12; 13; 11] [])) /\ Forall (bounded (ex_other ex_uvs [13; 11] [12; 13; 11] []) ex_lsides) (l_blocks (ex_other ex_uvs [13; 11] [12; 13; 11] [])).
Proof.
  split; [apply ex_other_sound; [auto|cbn; tauto]|]. split; [reflexivity|]. split; [cbn [ex_other l_uv ex_uvs]; repeat (apply Forall_cons; [discriminate|]); apply Forall_nil|].
  cbn [ex_other l_blocks]; repeat (apply Forall_cons; [do 3 eexists; split; [reflexivity|]; split; [reflexivity|]; cbn; tauto|]); apply Forall_nil.
Qed.
