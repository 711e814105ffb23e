(** * Property C130: which structural models accepted by the .ml export are exported. *)
From Coq Require Import ZArith List Lia Bool Ascii String.
From Verif Require Import Base Text TextFacts GocadModel MeshModel TsModel Spec GocadFacts TsFacts SignsModel MlModel MlFacts MlFile MlRound PropsMl.
From Verif Require Import PropsLsoAccept ExNum ExCheck.
Import ListNotations.
Local Open Scope string_scope.
Local Open Scope list_scope.
Local Open Scope Z_scope.

(** ** Specification *)
(** What the classes of OpenGeode guarantee of a model whose polygons are triangles ([check_brep_polygons]): distinct ids,
    triangles that join vertices of their surface, items of collections and boundaries of blocks that are surfaces of the model, items
    of units that are blocks of the model. *)
Record sound_structure {F} (m : SModel F) : Prop := {
  ss_ids : NoDup (map s_id (m_surfaces m) ++ map b_id (m_blocks m));
  ss_tris : Forall (fun s => Forall (fun t => let '(a, b, c) := t in
     0 <= a < lenz (s_points s) /\ 0 <= b < lenz (s_points s) /\ 0 <= c < lenz (s_points s)) (s_tris s)) (m_surfaces m);
  ss_items : forall i, In i (flat_map c_items (m_bounds m) ++ flat_map c_items (m_faults m) ++ flat_map c_items (m_horizons m)) ->
     In i (map s_id (m_surfaces m));
  ss_blocks : forall b s, In b (m_blocks m) -> In s (b_boundaries b ++ b_internals b) -> In s (map s_id (m_surfaces m));
  ss_units : forall u b, In u (m_units m ++ m_fblocks m) -> In b (c_items u) -> In b (map b_id (m_blocks m))
}.
(** Every fault, horizon, stratigraphic unit and fault block has a name. *)
Definition all_named {F} (m : SModel F) : Prop :=
  (forall c, In c (m_faults m) -> c_name c <> None) /\ (forall c, In c (m_horizons m) -> c_name c <> None) /\
  (forall c, In c (m_units m ++ m_fblocks m) -> c_name c <> None).
(** No horizon is an erosion or a baselap. *)
Definition known_contacts {F} (m : SModel F) : Prop :=
  forall c, In c (m_horizons m) -> c_type c <> CErosion /\ c_type c <> CBaselap.
(** The surface is in a model boundary, a fault or a horizon, or in no collection at all. *)
Definition shown {F} (m : SModel F) (i : Z) : Prop :=
  In i (flat_map c_items (m_bounds m) ++ flat_map c_items (m_faults m) ++ flat_map c_items (m_horizons m)) \/ ~ In i (m_others m).
Record writable {F} (m : SModel F) (usides : list (Z * bool)) (rsides : PairedSigns) : Prop := {
  w_named : all_named m;
  w_contacts : known_contacts m;
  w_tris : forall s, In s (m_surfaces m) -> shown m (s_id s) -> s_tris s <> [];
  w_usides : forall i, In i (flat_map c_items (m_bounds m)) -> exists x, find_id usides i = Some x;
  w_blocks : forall b i, In b (m_blocks m) -> In i (b_boundaries b) -> (exists x, find_pair rsides (b_id b) i = Some x) /\ shown m i;
  w_internals : forall b i, In b (m_blocks m) -> In i (b_internals b) -> shown m i
}.

(** ** Facts *)
Definition fine {A} (r : res A) : Prop := exists x, r = Ok x.
Lemma fine_bind {A B} (a : res A) (f : A -> res B) : fine (bind a f) <-> exists x, a = Ok x /\ fine (f x).
Proof.
  split.
  - intros [y H]. apply bind_ok in H as [x [E H]]. exists x. split; [exact E|]. now exists y.
  - intros [x [-> H]]. exact H.
Qed.
Lemma fine_mapM {A B} (f : A -> res B) l : fine (mapM f l) <-> forall a, In a l -> fine (f a).
Proof. unfold fine. rewrite mapM_iff, Forall_forall. reflexivity. Qed.
Lemma fine_name n : fine (name_value n) <-> n <> None.
Proof. destruct n as [n|]; cbn; split; intros H; [discriminate|exists n; reflexivity|destruct H as [x H]; discriminate|congruence]. Qed.
Lemma fine_horizon t : fine (horizon_text t) <-> t <> CErosion /\ t <> CBaselap.
Proof. destruct t; cbn; split; intros H; try (eexists; (eassumption || reflexivity)); try (split; discriminate); try (destruct H as [x H]; discriminate); destruct H; congruence. Qed.
Definition found (st : Comps) (i : Z) : Prop := exists n, find_id (comps st) i = Some n.
Lemma fine_comp st i : fine (comp_at st i) <-> found st i.
Proof.
  unfold comp_at, found, fine. destruct (find_id (comps st) i) as [n|]; split; intros [x H]; try discriminate; eauto.
Qed.
Lemma emplace_found {V} (l : list (Z * V)) i k x : (exists v, find_id (emplace_id l i k) x = Some v) <-> (exists v, find_id l x = Some v) \/ x = i.
Proof.
  unfold emplace_id. destruct (find_id l i) as [w|] eqn:E.
  - split; [auto|]. intros [H | ->]; [exact H|]. eauto.
  - destruct (find_id l x) as [v|] eqn:Ex.
    + split; [eauto|]. intros _. exists v. now apply find_id_app_l.
    + rewrite find_id_app_r by exact Ex. unfold find_id. cbn [find fst snd option_map]. destruct (Z.eqb_spec i x) as [-> |N]; cbn.
      * split; eauto.
      * split; [intros [v H]; discriminate|]. intros [[v H] | ->]; [discriminate|congruence].
Qed.

Lemma nodup_left {A} (a b : list A) : NoDup (a ++ b) -> NoDup a.
Proof.
  induction a as [|x a IH]; intros H; [constructor|]. inversion_clear H as [|? ? H1 H2]. constructor; [|auto].
  intros Hx. apply H1, in_app_iff. now left.
Qed.
Section Accept.
Context {F : Num} (uuid_text : Z -> bytes) (m : SModel F) (usides : list (Z * bool)) (rsides : PairedSigns) (SO : sound_structure m).
Definition good (i : Z) : Prop := exists s, surface_of m i = Ok s /\ fine (key_lines s).
Lemma find_surface i : In i (map s_id (m_surfaces m)) -> exists s, surface_of m i = Ok s /\ In s (m_surfaces m) /\ s_id s = i.
Proof.
  intros H. unfold surface_of. destruct (find _ _) as [s|] eqn:E.
  - apply find_some in E as [E1 E2]. apply Z.eqb_eq in E2. eauto.
  - apply in_map_iff in H as [s [<- Hs]]. apply find_none with (x := s) in E; [|exact Hs]. cbn in E. rewrite Z.eqb_refl in E. discriminate.
Qed.
Lemma same_id s s' : In s (m_surfaces m) -> In s' (m_surfaces m) -> s_id s = s_id s' -> s = s'.
Proof.
  pose proof (ss_ids m SO) as N. apply nodup_left in N. revert N.
  induction (m_surfaces m) as [|a l IH]; [easy|]. intros N [<-|Hs] [<-|Hs'] E; auto; inversion_clear N as [|? ? N1 N2]; auto; exfalso; apply N1.
  - rewrite E. now apply in_map.
  - rewrite <- E. now apply in_map.
Qed.
Lemma key_fine s : In s (m_surfaces m) -> fine (key_lines s) <-> s_tris s <> [].
Proof.
  intros Hs. unfold key_lines. destruct (s_tris s) as [|[[a b] c] r] eqn:E.
  - cbn. split; [intros [x H]; discriminate|congruence].
  - split; [discriminate|]. intros _. cbn [idx nth_error bind]. apply fine_mapM. intros v Hv.
    pose proof (ss_tris m SO) as T. rewrite Forall_forall in T. specialize (T s Hs). rewrite E in T. inversion_clear T as [|? ? T1 _].
    assert (0 <= v < lenz (s_points s)) as B by (destruct Hv as [<-|[<-|[<-|[]]]]; tauto).
    destruct (nthz_in_range (s_points s) v B) as [p Hp]. unfold idxz. rewrite Hp. cbn [bind]. eexists; (eassumption || reflexivity).
Qed.
Lemma good_iff s : In s (m_surfaces m) -> good (s_id s) <-> s_tris s <> [].
Proof.
  intros Hs. rewrite <- key_fine by exact Hs. unfold good. destruct (find_surface (s_id s)) as [s' [E [H1 H2]]]; [now apply in_map|].
  assert (s' = s) as -> by now apply same_id. rewrite E. split; [intros [x [[= <-] H]]; exact H|intros H; now exists s].
Qed.

(** The faces. *)
Lemma item_step k n ls st i : (exists v, k = Ok v) -> (exists v, n = Ok v) -> (forall x, found st x -> good x) ->
  (fine (write_tface_item m k n (ls, st) i) <-> good i) /\
  forall ls' st', write_tface_item m k n (ls, st) i = Ok (ls', st') -> (forall x, found st' x <-> found st x \/ x = i) /\ forall x, found st' x -> good x.
Proof.
  intros [kv ->] [nv ->] G. unfold write_tface_item. destruct (find_id (comps st) i) as [w|] eqn:E.
  - cbn [bind]. split.
    + split; [intros _; apply G; now exists w|]. intros _. eexists; (eassumption || reflexivity).
    + intros ls' st' [= <- <-]. split; [|exact G]. intros x. split; [auto|]. intros [H | ->]; [exact H|now exists w].
  - cbn [bind]. split.
    + unfold good. rewrite fine_bind. split.
      * intros [s [E1 H]]. exists s. split; [exact E1|]. apply fine_bind in H as [ks [E2 _]]. now exists ks.
      * intros [s [E1 [ks E2]]]. exists s. split; [exact E1|]. rewrite E2. cbn [bind]. eexists; (eassumption || reflexivity).
    + intros ls' st' H. apply bind_ok in H as [s [E1 H]]. apply bind_ok in H as [ks [E2 H]].
      assert (st' = mkComps (emplace_id (comps st) i (next_id st)) (next_id st + 1)) as -> by congruence.
      assert (X : forall x, found (mkComps (emplace_id (comps st) i (next_id st)) (next_id st + 1)) x <-> found st x \/ x = i)
        by (intros x; unfold found; cbn [comps]; apply emplace_found).
      split; [exact X|]. intros x Hx. apply X in Hx as [Hx | ->]; [auto|]. exists s. split; [exact E1|]. now exists ks.
Qed.
Lemma items_fold k n items : forall ls st, (exists v, k = Ok v) -> (exists v, n = Ok v) -> (forall x, found st x -> good x) ->
  (fine (foldM (write_tface_item m k n) items (ls, st)) <-> forall i, In i items -> good i) /\
  forall ls' st', foldM (write_tface_item m k n) items (ls, st) = Ok (ls', st') ->
    (forall x, found st' x <-> found st x \/ In x items) /\ forall x, found st' x -> good x.
Proof.
  induction items as [|i items IH]; intros ls st Hk Hn G; cbn [foldM].
  - split; [split; [intros _ i []|intros _; eexists; (eassumption || reflexivity)]|]. intros ls' st' [= <- <-]. split; [|exact G]. cbn. intros x. tauto.
  - destruct (item_step k n ls st i Hk Hn G) as [S1 S2]. split.
    + rewrite fine_bind. split.
      * intros [[l1 st1] [E H]]. destruct (S2 _ _ E) as [X G1]. intros j [<-|Hj]; [apply S1; eexists; (eassumption || reflexivity)|].
        exact (proj1 (proj1 (IH l1 st1 Hk Hn G1)) H j Hj).
      * intros H. destruct (proj2 S1 (H i (or_introl eq_refl))) as [[l1 st1] E]. exists (l1, st1). split; [exact E|].
        destruct (S2 _ _ E) as [X G1]. apply (proj2 (proj1 (IH l1 st1 Hk Hn G1))). intros j Hj. apply H. now right.
    + intros ls' st' H. apply bind_ok in H as [[l1 st1] [E H]]. destruct (S2 _ _ E) as [X G1].
      destruct (proj2 (IH l1 st1 Hk Hn G1) _ _ H) as [X2 G2]. split; [|exact G2]. intros x. rewrite X2, X. cbn [In]. split; [intros [[H1 | ->]|H1]; auto|].
      intros [H1|[<-|H1]]; auto.
Qed.
Definition all_items (secs : list (res bytes * res bytes * list Z)) : list Z := flat_map snd secs.
Lemma faces_fold secs : forall ls st, (forall k n items, In (k, n, items) secs -> fine k /\ fine n) -> (forall x, found st x -> good x) ->
  let step := fun acc (c : res bytes * res bytes * list Z) => let '(k, n, items) := c in foldM (write_tface_item m k n) items acc in
  (fine (foldM step secs (ls, st)) <-> forall i, In i (all_items secs) -> good i) /\
  forall ls' st', foldM step secs (ls, st) = Ok (ls', st') -> (forall x, found st' x <-> found st x \/ In x (all_items secs)).
Proof.
  induction secs as [|[[k n] items] secs IH]; intros ls st Hs G step; cbn [foldM all_items flat_map snd].
  - split; [split; [intros _ i []|intros _; eexists; (eassumption || reflexivity)]|]. intros ls' st' [= <- <-] x. cbn. tauto.
  - destruct (Hs k n items (or_introl eq_refl)) as [Hk Hn]. destruct (items_fold k n items ls st Hk Hn G) as [S1 S2].
    assert (Hs2 : forall k n items, In (k, n, items) secs -> fine k /\ fine n) by (intros; eapply Hs; right; eassumption).
    split.
    + rewrite fine_bind. split.
      * intros [[l1 st1] [E H]]. destruct (S2 _ _ E) as [X G1]. intros j Hj. apply in_app_iff in Hj as [Hj|Hj]; [apply S1; [eexists; (eassumption || reflexivity)|exact Hj]|].
        exact (proj1 (proj1 (IH l1 st1 Hs2 G1)) H j Hj).
      * intros H. destruct (proj2 S1) as [[l1 st1] E]; [intros i Hi; apply H, in_app_iff; now left|]. exists (l1, st1). split; [exact E|].
        destruct (S2 _ _ E) as [X G1]. apply (proj2 (proj1 (IH l1 st1 Hs2 G1))). intros j Hj. apply H, in_app_iff. now right.
    + intros ls' st' H. apply bind_ok in H as [[l1 st1] [E H]]. destruct (S2 _ _ E) as [X G1].
      intros x. rewrite (proj2 (IH l1 st1 Hs2 G1) _ _ H x), X, in_app_iff. tauto.
Qed.
(** The sections. *)
Lemma sections_fine : (forall c, In c (m_faults m) -> c_name c <> None) /\ (forall c, In c (m_horizons m) -> c_name c <> None) /\ known_contacts m <->
  forall k n items, In (k, n, items) (sections uuid_text m) -> fine k /\ fine n.
Proof.
  unfold sections. split.
  - intros [H1 [H2 H3]] k n items H. rewrite !in_app_iff, !in_map_iff in H. destruct H as [[c [[= <- <- _] _]]|[[c [[= <- <- _] Hc]]|[[c [[= <- <- _] Hc]]|[c [[= <- <- _] _]]]]];
    split; try (eexists; (eassumption || reflexivity)).
    + now apply fine_name, H1.
    + now apply fine_horizon, H3.
    + now apply fine_name, H2.
  - intros H. split; [|split].
    + intros c Hc. apply fine_name. apply (H (Ok (fault_text (c_type c))) (name_value (c_name c)) (c_items c)). rewrite !in_app_iff, !in_map_iff. right. left. eauto.
    + intros c Hc. apply fine_name. apply (H (horizon_text (c_type c)) (name_value (c_name c)) (c_items c)). rewrite !in_app_iff, !in_map_iff. right. right. left. eauto.
    + intros c Hc. apply fine_horizon. apply (H (horizon_text (c_type c)) (name_value (c_name c)) (c_items c)). rewrite !in_app_iff, !in_map_iff. right. right. left. eauto.
Qed.
Lemma flat_snd {T} (g : T -> res bytes * res bytes * list Z) (it : T -> list Z) l : (forall a, snd (g a) = it a) -> flat_map snd (map g l) = flat_map it l.
Proof. intros H. induction l as [|a l IH]; cbn; [reflexivity|]. now rewrite H, IH. Qed.
Lemma shown_items i : In i (map s_id (m_surfaces m)) -> In i (all_items (sections uuid_text m)) <-> shown m i.
Proof.
  intros Hi. unfold all_items, sections. rewrite !flat_map_app.
  rewrite (flat_snd _ c_items (m_bounds m)), (flat_snd _ c_items (m_faults m)), (flat_snd _ c_items (m_horizons m)), (flat_snd _ (fun s => [s_id s]) (unclassified m)) by reflexivity.
  set (gr := flat_map c_items (m_bounds m) ++ flat_map c_items (m_faults m) ++ flat_map c_items (m_horizons m)).
  assert (U : In i (flat_map (fun s : MSurf F => [s_id s]) (unclassified m)) <-> ~ In i (gr ++ m_others m)).
  { rewrite in_flat_map. unfold unclassified. split.
    - intros [s [Hs [<-|[]]]]. apply filter_In in Hs as [_ Hs]. apply negb_true_iff in Hs. intros Hin.
      assert (X : existsb (Z.eqb (s_id s)) (gr ++ m_others m) = true) by (apply existsb_exists; exists (s_id s); split; [exact Hin|apply Z.eqb_refl]).
      unfold gr in X. rewrite <- !app_assoc in X. rewrite X in Hs. discriminate.
    - intros N. apply in_map_iff in Hi as [s [<- Hs]]. exists s. split; [|now left]. apply filter_In. split; [exact Hs|]. apply negb_true_iff.
      destruct (existsb _ _) eqn:X; [|reflexivity]. exfalso. apply N. apply existsb_exists in X as [j [Hj Ej]]. apply Z.eqb_eq in Ej. rewrite Ej.
      unfold gr. rewrite <- !app_assoc. exact Hj. }
  unfold shown. fold gr. rewrite app_assoc, app_assoc, in_app_iff, U.
  replace ((flat_map c_items (m_bounds m) ++ flat_map c_items (m_faults m)) ++ flat_map c_items (m_horizons m)) with gr by (unfold gr; now rewrite app_assoc).
  rewrite in_app_iff. destruct (in_dec Z.eq_dec i gr); tauto.
Qed.
Lemma items_surfaces i : In i (all_items (sections uuid_text m)) -> In i (map s_id (m_surfaces m)).
Proof.
  unfold all_items, sections. rewrite !flat_map_app.
  rewrite (flat_snd _ c_items (m_bounds m)), (flat_snd _ c_items (m_faults m)), (flat_snd _ c_items (m_horizons m)), (flat_snd _ (fun s => [s_id s]) (unclassified m)) by reflexivity.
  rewrite !in_app_iff. intros [H|[H|[H|H]]]; try (apply (ss_items m SO); rewrite !in_app_iff; tauto).
  apply in_flat_map in H as [s [Hs [<-|[]]]]. unfold unclassified in Hs. apply filter_In in Hs as [Hs _]. now apply in_map.
Qed.
Lemma tsurfs_fine : fine (write_tsurfs uuid_text m) <-> (forall c, In c (m_faults m) -> c_name c <> None) /\ (forall c, In c (m_horizons m) -> c_name c <> None).
Proof.
  unfold write_tsurfs. rewrite fine_bind. split.
  - intros [fs [E1 H]]. apply fine_bind in H as [hs [E2 _]].
    assert (X1 : fine (mapM (fun c => name_value (c_name c)) (m_faults m))) by (now exists fs).
    assert (X2 : fine (mapM (fun c => name_value (c_name c)) (m_horizons m))) by (now exists hs).
    rewrite fine_mapM in X1. rewrite fine_mapM in X2. split; intros c Hc; apply fine_name; auto.
  - intros [H1 H2].
    assert (X1 : fine (mapM (fun c => name_value (c_name c)) (m_faults m))) by (apply fine_mapM; intros c Hc; now apply fine_name, H1).
    assert (X2 : fine (mapM (fun c => name_value (c_name c)) (m_horizons m))) by (apply fine_mapM; intros c Hc; now apply fine_name, H2).
    destruct X1 as [fs X1], X2 as [hs X2]. exists fs. split; [exact X1|]. rewrite X2. cbn [bind]. eexists; (eassumption || reflexivity).
Qed.
Lemma surfaces_fine : fine (write_model_surfaces uuid_text m) <-> forall k n items, In (k, n, items) (sections uuid_text m) -> fine k /\ fine n.
Proof.
  unfold write_model_surfaces. rewrite fine_bind. split.
  - intros [ls [E _]] k n items H.
    match type of E with mapM ?f ?l = _ => assert (X : fine (mapM f l)) by (now exists ls) end. rewrite fine_mapM in X.
    apply X in H. apply fine_bind in H as [n' [En H]]. apply fine_bind in H as [k' [Ek _]]. split; [now exists k'|now exists n'].
  - intros H. match goal with |- exists x, mapM ?f ?l = Ok x /\ _ => assert (X : fine (mapM f l)) end.
    { apply fine_mapM. intros [[k n] items] Hin. destruct (H k n items Hin) as [[k' ->] [n' ->]]. cbn [bind].
      assert (X : fine (mapM (surface_of m) items)).
      { apply fine_mapM. intros i Hi. destruct (find_surface i) as [s [E _]]; [|now exists s]. apply items_surfaces. unfold all_items. apply in_flat_map.
        exists (Ok k', Ok n', items). auto. }
      destruct X as [ss ->]. cbn [bind]. eexists; (eassumption || reflexivity). }
    destruct X as [ls ->]. exists ls. split; [reflexivity|]. eexists; (eassumption || reflexivity).
Qed.
(** The regions. *)
Lemma region_step ls st b : (forall i, In i (map s_id (m_surfaces m)) -> found st i <-> shown m i) -> In b (m_blocks m) ->
  (fine (write_region uuid_text rsides (ls, st) b) <->
     (forall i, In i (b_boundaries b) -> (exists x, find_pair rsides (b_id b) i = Some x) /\ shown m i) /\ (forall i, In i (b_internals b) -> shown m i)) /\
  forall ls' st', write_region uuid_text rsides (ls, st) b = Ok (ls', st') -> forall x, found st' x <-> found st x \/ x = b_id b.
Proof.
  intros G Hb. unfold write_region. split.
  - rewrite fine_bind. split.
    + intros [es [E H]]. apply fine_bind in H as [is [E2 _]].
      match type of E with mapM ?f ?l = _ => assert (X : fine (mapM f l)) by (now exists es) end.
      match type of E2 with mapM ?f ?l = _ => assert (X2 : fine (mapM f l)) by (now exists is) end.
      rewrite fine_mapM in X. rewrite fine_mapM in X2. split; intros i Hi.
      * specialize (X i Hi). apply fine_bind in X as [sd [Es X]]. apply fine_bind in X as [n [En _]]. split.
        -- destruct (find_pair rsides (b_id b) i); [eauto|discriminate].
        -- apply G; [apply (ss_blocks m SO b i Hb), in_app_iff; now left|]. apply fine_comp. now exists n.
      * specialize (X2 i Hi). apply fine_bind in X2 as [n [En _]].
        apply G; [apply (ss_blocks m SO b i Hb), in_app_iff; now right|]. apply fine_comp. now exists n.
    + intros [H1 H2].
      assert (X : fine (mapM (fun s => do side <- match find_pair rsides (b_id b) s with Some x => Ok x | None => Throw ExOutOfRange end;
                     do n <- comp_at st s; Ok (signed_id side n)) (b_boundaries b))).
      { apply fine_mapM. intros i Hi. destruct (H1 i Hi) as [[x ->] Hs]. cbn [bind]. apply G in Hs; [|apply (ss_blocks m SO b i Hb), in_app_iff; now left].
        apply fine_comp in Hs as [n ->]. cbn [bind]. eexists; (eassumption || reflexivity). }
      assert (X2 : fine (mapM (fun s => do n <- comp_at st s; Ok [signed_id true n; signed_id false n]) (b_internals b))).
      { apply fine_mapM. intros i Hi. specialize (H2 i Hi). apply G in H2; [|apply (ss_blocks m SO b i Hb), in_app_iff; now right].
        apply fine_comp in H2 as [n ->]. cbn [bind]. eexists; (eassumption || reflexivity). }
      destruct X as [es X], X2 as [is X2]. exists es. split; [exact X|]. rewrite X2. cbn [bind]. eexists; (eassumption || reflexivity).
  - intros ls' st' H x. apply bind_ok in H as [es [_ H]]. apply bind_ok in H as [is [_ H]].
    assert (st' = mkComps (emplace_id (comps st) (b_id b) (next_id st)) (next_id st + 1)) as -> by congruence.
    unfold found. cbn [comps]. apply emplace_found.
Qed.
Lemma block_not_surface b i : In b (m_blocks m) -> In i (map s_id (m_surfaces m)) -> i <> b_id b.
Proof.
  intros Hb Hi ->. pose proof (ss_ids m SO) as N. apply (in_map b_id) in Hb. apply in_split in Hi as [a [c E]]. rewrite E in N.
  rewrite <- app_assoc in N. cbn [app] in N. apply NoDup_remove_2 in N. apply N. rewrite !in_app_iff. tauto.
Qed.
Lemma regions_fold bs : (forall b, In b bs -> In b (m_blocks m)) -> forall ls st, (forall i, In i (map s_id (m_surfaces m)) -> found st i <-> shown m i) ->
  (fine (foldM (write_region uuid_text rsides) bs (ls, st)) <-> forall b, In b bs ->
     (forall i, In i (b_boundaries b) -> (exists x, find_pair rsides (b_id b) i = Some x) /\ shown m i) /\ (forall i, In i (b_internals b) -> shown m i)) /\
  forall ls' st', foldM (write_region uuid_text rsides) bs (ls, st) = Ok (ls', st') -> forall x, found st' x <-> found st x \/ In x (map b_id bs).
Proof.
  induction bs as [|b bs IH]; intros Hbs ls st G; cbn [foldM].
  - split; [split; [intros _ b []|intros _; eexists; (eassumption || reflexivity)]|]. intros ls' st' [= <- <-] x. cbn. tauto.
  - destruct (region_step ls st b G (Hbs b (or_introl eq_refl))) as [S1 S2].
    assert (G2 : forall l1 st1, write_region uuid_text rsides (ls, st) b = Ok (l1, st1) -> forall i, In i (map s_id (m_surfaces m)) -> found st1 i <-> shown m i).
    { intros l1 st1 E i Hi. rewrite (S2 _ _ E i), <- (G i Hi). pose proof (block_not_surface b i (Hbs b (or_introl eq_refl)) Hi). tauto. }
    assert (Hbs2 : forall b, In b bs -> In b (m_blocks m)) by (intros; apply Hbs; now right). split.
    + rewrite fine_bind. split.
      * intros [[l1 st1] [E H]]. intros b' [<-|Hb']; [apply S1; eexists; (eassumption || reflexivity)|]. apply (proj1 (proj1 (IH Hbs2 l1 st1 (G2 _ _ E))) H); assumption.
      * intros H. destruct (proj2 S1 (H b (or_introl eq_refl))) as [[l1 st1] E]. exists (l1, st1). split; [exact E|].
        apply (proj2 (proj1 (IH Hbs2 l1 st1 (G2 _ _ E)))). intros b' Hb'. apply H. now right.
    + intros ls' st' H x. apply bind_ok in H as [[l1 st1] [E H]]. rewrite (proj2 (IH Hbs2 l1 st1 (G2 _ _ E)) _ _ H x), (S2 _ _ E x). cbn [map In].
      split; [intros [[? | ->]|?]; auto|intros [?|[<-|?]]; auto].
Qed.
Lemma unit_fine kw st c : (forall b, In b (c_items c) -> found st b) -> fine (write_unit kw st c) <-> c_name c <> None.
Proof.
  intros H. unfold write_unit. rewrite fine_bind, <- fine_name. split.
  - intros [n [E _]]. now exists n.
  - intros [n E]. exists n. split; [exact E|]. assert (X : fine (mapM (fun b => do k <- comp_at st b; Ok (show k)) (c_items c))).
    { apply fine_mapM. intros b Hb. apply H, fine_comp in Hb as [k ->]. cbn [bind]. eexists; (eassumption || reflexivity). }
    destruct X as [es ->]. cbn [bind]. eexists; (eassumption || reflexivity).
Qed.

(** A model that [is_saveable] accepts is exported exactly when it is writable. *)
Theorem C130_exported_iff : (exists text, write_ml uuid_text m usides rsides = Ok text) <-> writable m usides rsides.
Proof.
  assert (R : (exists text, write_ml uuid_text m usides rsides = Ok text) <-> fine (ml_lines uuid_text m usides rsides)).
  { unfold write_ml, rmap, fine. destruct (ml_lines uuid_text m usides rsides); split; intros [x H]; try discriminate; eexists; reflexivity. }
  rewrite R. clear R. unfold ml_lines. rewrite fine_bind.
  set (st0 := mkComps [] 1).
  assert (G0 : forall x, found st0 x -> good x) by (intros x [n H]; discriminate H).
  assert (T : forall l2 st2, (forall k n items, In (k, n, items) (sections uuid_text m) -> fine k /\ fine n) -> write_tfaces uuid_text m = Ok (l2, st2) ->
     forall i, In i (map s_id (m_surfaces m)) -> found st2 i <-> shown m i).
  { intros l2 st2 Hs E i Hi. rewrite <- (shown_items i Hi). unfold write_tfaces in E. rewrite (proj2 (faces_fold (sections uuid_text m) [] st0 Hs G0) _ _ E i).
    split; [intros [[n H]|H]; [discriminate H|exact H]|auto]. }
  assert (Wt : (forall k n items, In (k, n, items) (sections uuid_text m) -> fine k /\ fine n) ->
     fine (write_tfaces uuid_text m) <-> forall s, In s (m_surfaces m) -> shown m (s_id s) -> s_tris s <> []).
  { intros Hs. unfold write_tfaces. transitivity (forall i, In i (all_items (sections uuid_text m)) -> good i); [exact (proj1 (faces_fold (sections uuid_text m) [] st0 Hs G0))|]. split.
    - intros H s Hin Hsh. apply good_iff; [exact Hin|]. apply H. apply shown_items; [now apply in_map|exact Hsh].
    - intros H i Hi. pose proof (items_surfaces i Hi) as Hsurf. apply shown_items in Hi; [|exact Hsurf]. apply in_map_iff in Hsurf as [s [<- Hin]].
      apply good_iff; [exact Hin|]. now apply H. }
  assert (Bs : forall i, In i (flat_map c_items (m_bounds m)) -> In i (map s_id (m_surfaces m)) /\ shown m i).
  { intros i Hi. split; [apply (ss_items m SO)|left]; apply in_app_iff; now left. }
  split.
  - intros [cs [Ec Hss]]. apply fine_bind in Hss as [ss [Es _]]. assert (X : fine (write_model_surfaces uuid_text m)) by (now exists ss).
    rewrite surfaces_fine in X. rename X into Hs. pose proof (proj2 sections_fine Hs) as (Nf & Nh & Kc).
    unfold write_components in Ec. apply bind_ok in Ec as [l1 [_ Ec]]. apply bind_ok in Ec as [[l2 st2] [E2 Ec]]. apply bind_ok in Ec as [[l3 st3] [E3 Ec]].
    apply bind_ok in Ec as [[l4 st4] [E4 Ec]]. apply bind_ok in Ec as [l5 [E5 Ec]]. apply bind_ok in Ec as [l6 [E6 _]].
    specialize (T l2 st2 Hs E2). unfold write_universe in E3. apply bind_ok in E3 as [es [Eu E3]].
    assert (st3 = mkComps (comps st2) (next_id st2 + 1)) as -> by congruence.
    match type of Eu with mapM ?f ?l = _ => assert (Xu : fine (mapM f l)) by (now exists es) end. rewrite fine_mapM in Xu.
    destruct (regions_fold (m_blocks m) (fun b H => H) [] (mkComps (comps st2) (next_id st2 + 1)) T) as [R1 R2].
    pose proof (proj1 R1 (ex_intro _ _ E4)) as Rb.
    constructor.
    + split; [exact Nf|]. split; [exact Nh|]. intros c Hc. apply in_app_iff in Hc as [Hc|Hc].
      * match type of E5 with mapM ?f ?l = _ => assert (Y : fine (mapM f l)) by (now exists l5) end. rewrite fine_mapM in Y. apply Y in Hc.
        unfold write_unit in Hc. apply fine_bind in Hc as [n [En _]]. apply fine_name. now exists n.
      * match type of E6 with mapM ?f ?l = _ => assert (Y : fine (mapM f l)) by (now exists l6) end. rewrite fine_mapM in Y. apply Y in Hc.
        unfold write_unit in Hc. apply fine_bind in Hc as [n [En _]]. apply fine_name. now exists n.
    + exact Kc.
    + apply Wt; [exact Hs|]. now exists (l2, st2).
    + intros i Hi. apply Xu in Hi. apply fine_bind in Hi as [x [Ex _]]. destruct (find_id usides i); [eauto|discriminate].
    + intros b i Hb Hi. exact (proj1 (Rb b Hb) i Hi).
    + intros b i Hb Hi. exact (proj2 (Rb b Hb) i Hi).
  - intros [(Nf & Nh & Nu) Kc Ht Hu Hb Hi].
    assert (Hs : forall k n items, In (k, n, items) (sections uuid_text m) -> fine k /\ fine n) by (apply sections_fine; auto).
    destruct (proj2 surfaces_fine Hs) as [ss Es]. destruct (proj2 tsurfs_fine (conj Nf Nh)) as [l1 E1].
    destruct (proj2 (Wt Hs) Ht) as [[l2 st2] E2]. specialize (T l2 st2 Hs E2).
    assert (Xu : fine (write_universe m usides st2)).
    { unfold write_universe. match goal with |- fine (bind (mapM ?f ?l) _) => assert (Y : fine (mapM f l)) end.
      { apply fine_mapM. intros i Hin. destruct (Hu i Hin) as [x ->]. cbn [bind]. destruct (Bs i Hin) as [B1 B2]. apply T in B2; [|exact B1].
        apply fine_comp in B2 as [n ->]. cbn [bind]. eexists; (eassumption || reflexivity). }
      destruct Y as [es ->]. cbn [bind]. eexists; (eassumption || reflexivity). }
    destruct Xu as [[l3 st3] E3].
    assert (S3 : comps st3 = comps st2) by (unfold write_universe in E3; apply bind_ok in E3 as [es [_ E3]]; injection E3 as _ <-; reflexivity).
    assert (T3 : forall i, In i (map s_id (m_surfaces m)) -> found st3 i <-> shown m i) by (intros i Hin; unfold found; rewrite S3; now apply T).
    destruct (regions_fold (m_blocks m) (fun b H => H) [] st3 T3) as [R1 R2].
    destruct (proj2 R1) as [[l4 st4] E4]; [intros b Hin; split; intros i Hi2; [exact (Hb b i Hin Hi2)|exact (Hi b i Hin Hi2)]|].
    assert (U : forall kw us, (forall u, In u us -> In u (m_units m ++ m_fblocks m)) -> fine (mapM (write_unit kw st4) us)).
    { intros kw us Hus. apply fine_mapM. intros u Hin. apply unit_fine; [|exact (Nu u (Hus u Hin))]. intros b Hbin. apply (R2 _ _ E4). right.
      eapply (ss_units m SO); [exact (Hus u Hin)|exact Hbin]. }
    destruct (U (lit "LAYER ") (m_units m)) as [l5 E5]; [intros; apply in_app_iff; now left|].
    destruct (U (lit "FAULT_BLOCK ") (m_fblocks m)) as [l6 E6]; [intros; apply in_app_iff; now right|].
    eexists. split.
    + unfold write_components. rewrite E1. cbn [bind]. rewrite E2. cbn [bind]. rewrite E3. cbn [bind]. rewrite E4. cbn [bind]. rewrite E5. cbn [bind]. rewrite E6. reflexivity.
    + rewrite Es. cbn [bind]. eexists; (eassumption || reflexivity).
Qed.
End Accept.
Print Assumptions C130_exported_iff.

(** ** Instances *)
Lemma exportable_sound {F} u (m : SModel F) us rs : exportable u m us rs -> sound_structure m.
Proof.
  intros E. constructor.
  - apply (e_ids _ _ _ _ E).
  - eapply Forall_impl; [|apply (e_surfaces _ _ _ _ E)]. intros s Hs. apply (ps_tris _ Hs).
  - apply (e_items _ _ _ _ E).
  - intros b s Hb Hs. apply (e_blocks _ _ _ _ E b Hb). exact Hs.
  - intros c b Hc Hb. apply (e_units _ _ _ _ E c Hc). exact Hb.
Qed.
Example C130_example : sound_structure ex_model /\ writable ex_model ex_usides ex_rsides.
Proof.
  assert (S0 : sound_structure ex_model) by (apply (exportable_sound ex_uuid _ ex_usides ex_rsides), ex_exportable).
  split; [exact S0|]. apply (C130_exported_iff ex_uuid ex_model ex_usides ex_rsides S0).
  destruct (C37_block_topology ExNum ex_uuid ex_model ex_usides ex_rsides ExNum_ok ExNum_coords ex_exportable) as (text & _ & _ & W & _). now exists text.
Qed.

(** Models that [is_saveable] accepts and that are not exported: a horizon that is an erosion, a layer without name, a surface without triangle, a
    boundary of a block that is only in another kind of collection. *)
Definition ex_odd (t : contact_type) (layer : option bytes) (last : MSurf ExNum) (others : list Z) : SModel ExNum :=
  mkSModel (F:=ExNum) (Some (lit "my model")) [ex_surf 1 0; ex_surf 2 10; ex_surf 3 20; last]
    [mkColl 10 (Some (lit "outer box")) tt [1]]
    [mkColl 11 (Some (lit "big fault")) FNormal [2]]
    [mkColl 12 (Some (lit "H1")) t [3]]
    others
    [mkBlock 100 (Some (lit "west")) [1; 2] [3]; mkBlock 101 None [2; 4] []]
    [mkColl 20 layer tt [101; 100]] [mkColl 21 (Some (lit "FB")) tt [101]].
Definition ex_bare : MSurf ExNum := mkMSurf (F:=ExNum) 4 None [] [] [] [].
Lemma ex_odd_sound t layer last others : last = ex_surf 4 30 \/ last = ex_bare -> sound_structure (ex_odd t layer last others).
Proof.
  intros HL. assert (I : s_id last = 4) by (destruct HL; subst; reflexivity). constructor.
  - cbn [m_surfaces ex_odd map s_id ex_surf app m_blocks b_id]. rewrite I. cbn. nodup.
  - cbn [m_surfaces ex_odd]. do 3 (apply Forall_cons; [apply (ps_tris _ (ex_surf_proper _ _))|]). apply Forall_cons; [|constructor].
    destruct HL as [-> | ->]; [apply (ps_tris _ (ex_surf_proper _ _))|constructor].
  - cbn. rewrite I. tauto.
  - intros b s. cbn [m_blocks ex_odd In]. cbn [m_surfaces ex_odd map s_id ex_surf]. rewrite I. intros H. cases; cbn; tauto.
  - intros c b. cbn [m_units m_fblocks ex_odd In app]. intros H. cases; cbn; tauto.
Qed.
Theorem C130_accepted_not_exported_refuted :
  let w m := write_ml ex_uuid m ex_usides ex_rsides in
  (exists m : SModel ExNum, sound_structure m /\ exists e, w m = Throw e) /\
  (exists m : SModel ExNum, sound_structure m /\ w m = UB) /\
  (exists m : SModel ExNum, sound_structure m /\ all_named m /\ known_contacts m /\ Forall (fun s => s_tris s <> []) (m_surfaces m) /\ exists e, w m = Throw e).
Proof.
  intros w. split; [|split].
  - exists (ex_odd CErosion (Some (lit "layer 1")) (ex_surf 4 30) []). split; [apply ex_odd_sound; auto|]. apply is_Throw_ok. vm_compute. reflexivity.
  - exists (ex_odd CTopography (Some (lit "layer 1")) ex_bare []). split; [apply ex_odd_sound; auto|]. apply is_UB_ok. vm_compute. reflexivity.
  - exists (ex_odd CTopography (Some (lit "layer 1")) (ex_surf 4 30) [4]). split; [apply ex_odd_sound; auto|].
    split; [repeat split; intros c; cbn; intros H; cases; discriminate|]. split; [intros c; cbn; intros H; cases; split; discriminate|].
    split; [repeat (apply Forall_cons; [discriminate|]); constructor|]. apply is_Throw_ok. vm_compute. reflexivity.
Qed.
Print Assumptions C130_accepted_not_exported_refuted.
Example C130_layer_without_name : sound_structure (ex_odd CTopography None (ex_surf 4 30) []) /\
  is_Throw (write_ml ex_uuid (ex_odd CTopography None (ex_surf 4 30) []) ex_usides ex_rsides) = true.
Proof. split; [apply ex_odd_sound; auto|vm_compute; reflexivity]. Qed.
