(** * The .ml format: what an exported and reloaded model must satisfy, and its proof.
    The theorems for the properties C36-C41, C70-C72 are in PropsMl.v. *)
From Coq Require Import ZArith List Lia Bool Ascii String Permutation.
From Verif Require Import Base Text TextFacts GocadModel MeshModel TsModel Spec GocadFacts TsFacts
  SignsModel MlModel MlFacts MlFile.
Import ListNotations.
Local Open Scope string_scope.
Local Open Scope list_scope.
Local Open Scope Z_scope.

(** ** Specification *)
Section Spec.
Context {F : Num}.
Variable uuid_text : Z -> bytes.

(** The label of a component: its name, or its identifier. *)
Definition label (name : option bytes) (id : Z) : bytes :=
  match name with Some n => n | None => uuid_text id end.
(** A label as it is shown in the file for boundaries, blocks, surfaces. *)
Definition underscored (l : bytes) : bytes :=
  map (fun c => if Ascii.eqb c " " then "_"%char else c) l.

(** Surfaces in a boundary, a fault or a horizon. *)
Definition grouped (m : SModel F) : list Z :=
  flat_map c_items (m_bounds m) ++ flat_map c_items (m_faults m) ++ flat_map c_items (m_horizons m).
(** The surfaces in none of them. *)
Definition free (m : SModel F) : list (MSurf F) :=
  filter (fun s => negb (existsb (Z.eqb (s_id s)) (grouped m))) (m_surfaces m).

(** What a type becomes. *)
Definition kept_fault (t : fault_type) : fault_type :=
  match t with FNormal => FNormal | FReverse => FReverse | _ => FNoType end.

(** The collections of the model: kind, name, surfaces. *)
Definition groups (m : SModel F) : list (kind_in * bytes * list Z) :=
  map (fun c => (KBoundary, underscored (label (c_name c) (c_id c)), c_items c)) (m_bounds m) ++
  map (fun c => (KFault (kept_fault (c_type c)), label (c_name c) (c_id c), c_items c)) (m_faults m) ++
  map (fun c => (KHorizon (c_type c), label (c_name c) (c_id c), c_items c)) (m_horizons m) ++
  map (fun s => (KBoundary, underscored (label (s_name s) (s_id s)), [s_id s])) (free m).
Definition gname (g : kind_in * bytes * list Z) : bytes := snd (fst g).

(** Number of points of a list of surfaces. *)
Definition nb_points (ss : list (MSurf F)) : Z := fold_right Z.add 0 (map (fun s => lenz (s_points s)) ss).

(** A surface: at least one triangle, vertices in range (also those of the border walk). *)
Record proper_surface (s : MSurf F) : Prop := {
  ps_some : s_tris s <> [];
  ps_tris : Forall (fun t => let '(a, b, c) := t in
     0 <= a < lenz (s_points s) /\ 0 <= b < lenz (s_points s) /\ 0 <= c < lenz (s_points s)) (s_tris s);
  ps_loops : forall loop e, In loop (s_loops s) -> In e loop ->
     0 <= fst e < lenz (s_points s) /\ 0 <= snd e < lenz (s_points s)
}.

(** Models that can be exported faithfully. *)
Record exportable (m : SModel F) (usides : list (Z * bool)) (rsides : PairedSigns) : Prop := {
  (* components *)
  e_ids : NoDup (map s_id (m_surfaces m) ++ map b_id (m_blocks m));
  e_surfaces : Forall proper_surface (m_surfaces m);
  (* collections: known surfaces, each in one of them only; not empty *)
  e_items : forall s, In s (grouped m) -> In s (map s_id (m_surfaces m));
  e_once : NoDup (grouped m);
  e_others : forall s, In s (m_others m) -> In s (grouped m);
  e_nonempty : forall g, In g (groups m) -> snd g <> [];
  (* names *)
  e_named : (forall c, In c (m_faults m) -> c_name c <> None) /\ (forall c, In c (m_horizons m) -> c_name c <> None);
  e_clean : forall g, In g (groups m) -> clean (gname g);
  e_distinct : NoDup (map gname (groups m));
  e_title : forall n, m_title m = Some n -> is_line n;
  (* types *)
  e_contact : forall c, In c (m_horizons m) -> c_type c <> CErosion /\ c_type c <> CBaselap;
  (* sides *)
  e_usides : forall s, In s (flat_map c_items (m_bounds m)) -> exists x, find_id usides s = Some x;
  e_rsides : forall b s, In b (m_blocks m) -> In s (b_boundaries b) -> exists x, find_pair rsides (b_id b) s = Some x;
  (* blocks *)
  e_blocks : forall b, In b (m_blocks m) ->
    clean (underscored (label (b_name b) (b_id b))) /\
    underscored (label (b_name b) (b_id b)) <> lit "Universe" /\
    NoDup (b_boundaries b ++ b_internals b) /\
    (forall s, In s (b_boundaries b ++ b_internals b) -> In s (map s_id (m_surfaces m))) /\
    (2 <= List.length (b_boundaries b) \/ 1 <= List.length (b_internals b))%nat;
  (* units *)
  e_units : forall u, In u (m_units m ++ m_fblocks m) ->
    (exists n, c_name u = Some n /\ clean n) /\
    forall b, In b (c_items u) -> In b (map b_id (m_blocks m));
  (* sizes *)
  e_size : lenz (m_surfaces m) < 2147483648 /\ 2 + lenz (m_surfaces m) + lenz (m_blocks m) < 4294967296
           /\ 1 + nb_points (m_surfaces m) <= 4294967296
}.

(** A loaded unit is the saved one: same name, and its blocks are those at the positions of
    the saved ones. *)
Definition same_unit (m : SModel F) (u : Coll unit) (u' : bytes * list Z) : Prop :=
  c_name u = Some (fst u') /\
  Forall2 (fun b k => nth_error (map b_id (m_blocks m)) (Z.to_nat k) = Some b /\ 0 <= k) (c_items u) (snd u').
Definition same_block (nb : Z -> Z) (b : MBlock) (b' : BlkIn) : Prop :=
  bi_name b' = underscored (label (b_name b) (b_id b)) /\
  Permutation (bi_boundaries b') (map nb (b_boundaries b)) /\
  Permutation (bi_internals b') (map nb (b_internals b)).

(** The model in memory after loading is the saved one; [nb] is the number (by creation) of the
    loaded surface for each saved surface. *)
Record same_model (m : SModel F) (out : MlIn F) (nb : Z -> Z) : Prop := {
  l_title : o_title out = option_map normalise (m_title m);
  l_distinct : forall a b, In a (map s_id (m_surfaces m)) -> In b (map s_id (m_surfaces m)) -> nb a = nb b -> a = b;
  l_number : lenz (o_surfaces out) = lenz (m_surfaces m) /\
             forall a, In a (map s_id (m_surfaces m)) -> 0 <= nb a < lenz (m_surfaces m);
  l_once : NoDup (map fst (o_meshes out)) /\ lenz (o_meshes out) = lenz (m_surfaces m);
  l_mesh : forall s, In s (m_surfaces m) -> exists mesh, In (nb (s_id s), mesh) (o_meshes out) /\
             m_cells mesh = s_tris s /\ Forall2 (reread_point F) (s_points s) (m_points mesh);
  l_colls : exists more,
     o_colls out = map (fun g => mkCollIn (fst (fst g)) (gname g) (map nb (snd g))) (groups m) ++ more /\
     (free m = [] -> more = []);
  l_more : exists more,
     o_colls out = map (fun g => mkCollIn (fst (fst g)) (gname g) (map nb (snd g))) (groups m) ++ more /\
     Forall (fun c => ci_kind c = KBoundary) more;
  (* the surfaces in no collection are in one more boundary *)
  l_undefined : free m <> [] ->
     o_colls out = map (fun g => mkCollIn (fst (fst g)) (gname g) (map nb (snd g))) (groups m)
       ++ [mkCollIn KBoundary (lit "undefined boundary") (map nb (map s_id (free m)))];
  l_blocks : Forall2 (same_block nb) (m_blocks m) (o_blocks out);
  l_units : Forall2 (same_unit m) (m_units m) (o_units out);
  l_fblocks : Forall2 (same_unit m) (m_fblocks m) (o_fblocks out)
}.

(** ** Proof *)
Definition surfs (m : SModel F) (items : list Z) : list (MSurf F) :=
  flat_map (fun i => match find (fun s => s_id s =? i) (m_surfaces m) with Some s => [s] | None => [] end) items.
Notation sec := (bytes * bytes * list (MSurf F))%type.
Definition htext (t : contact_type) : bytes := match horizon_text t with Ok x => x | _ => [] end.
Definition secs_of (m : SModel F) : list sec :=
  map (fun c => (lit "boundary", underscored (label (c_name c) (c_id c)), surfs m (c_items c))) (m_bounds m) ++
  map (fun c => (fault_text (c_type c), label (c_name c) (c_id c), surfs m (c_items c))) (m_faults m) ++
  map (fun c => (htext (c_type c), label (c_name c) (c_id c), surfs m (c_items c))) (m_horizons m) ++
  map (fun s => (lit "boundary", underscored (label (s_name s) (s_id s)), surfs m [s_id s])) (free m).

Lemma find_some_id (m : SModel F) i : In i (map s_id (m_surfaces m)) ->
  exists s, find (fun s => s_id s =? i) (m_surfaces m) = Some s /\ s_id s = i /\ In s (m_surfaces m).
Proof.
  intros H. apply in_map_iff in H as [s [E H]].
  destruct (find (fun s => s_id s =? i) (m_surfaces m)) as [s'|] eqn:Ef.
  - apply find_some in Ef as [H1 H2]. apply Z.eqb_eq in H2. eauto.
  - exfalso. pose proof (find_none _ _ Ef s H) as H2. cbn beta in H2. apply Z.eqb_neq in H2. congruence.
Qed.
Lemma surfs_ids (m : SModel F) items : (forall i, In i items -> In i (map s_id (m_surfaces m))) -> map s_id (surfs m items) = items.
Proof.
  induction items as [|i items IH]; intros H; [reflexivity|]. unfold surfs in *. cbn [flat_map]. rewrite map_app.
  destruct (find_some_id m i (H i ltac:(now left))) as [s [-> [E _]]]. cbn [map app]. rewrite E. f_equal. apply IH.
  intros; apply H; now right.
Qed.
Lemma surfs_in (m : SModel F) items s : In s (surfs m items) -> surface_of m (s_id s) = Ok s /\ In s (m_surfaces m) /\ In (s_id s) items.
Proof.
  unfold surfs, surface_of. intros H. apply in_flat_map in H as [i [Hi H]].
  destruct (find (fun s => s_id s =? i) (m_surfaces m)) as [x|] eqn:E; [|inversion H].
  destruct H as [->|[]]. pose proof (find_some _ _ E) as [H1 H2]. apply Z.eqb_eq in H2. subst i. rewrite E. auto.
Qed.
Lemma surfs_nonempty (m : SModel F) items : (forall i, In i items -> In i (map s_id (m_surfaces m))) -> items <> [] -> surfs m items <> [].
Proof. intros H Hn E. apply surfs_ids in H. rewrite E in H. cbn in H. congruence. Qed.

(** Each section comes from a group. *)
Definition sec_of (m : SModel F) (g : kind_in * bytes * list Z) (s : sec) : Prop :=
  gname g = snd (fst s) /\ surfs m (snd g) = snd s /\ token (fst (fst s)) /\ kind_of (fst (fst s)) = Ok (fst (fst g)).
Lemma secs_groups m : (forall c, In c (m_horizons m) -> c_type c <> CErosion /\ c_type c <> CBaselap) ->
  Forall2 (sec_of m) (groups m) (secs_of m).
Proof.
  intros H. unfold groups, secs_of. repeat apply Forall2_app; apply Forall2_map_both; intros c Hc; unfold sec_of; cbn [fst snd gname];
    (split; [reflexivity|]); (split; [reflexivity|]).
  - split; [now apply tokenb_ok|reflexivity].
  - destruct (c_type c); (split; [now apply tokenb_ok|reflexivity]).
  - destruct (H c Hc). destruct (c_type c); try congruence; (split; [now apply tokenb_ok|reflexivity]).
  - split; [now apply tokenb_ok|reflexivity].
Qed.

Lemma flat_map_map {A B C} (f : B -> list C) (g : A -> B) l : flat_map f (map g l) = flat_map (fun x => f (g x)) l.
Proof. induction l as [|x l IH]; [reflexivity|]. cbn [map flat_map]. now rewrite IH. Qed.
Lemma group_items m : flat_map snd (groups m) = grouped m ++ map s_id (free m).
Proof.
  unfold groups, grouped. rewrite !flat_map_app, !flat_map_map, <- !app_assoc. cbn [snd]. do 3 f_equal.
Qed.
Lemma existsb_in x l : existsb (Z.eqb x) l = true <-> In x l.
Proof.
  rewrite existsb_exists. split; [intros [y [H E]]|eauto using Z.eqb_refl].
  apply Z.eqb_eq in E. now subst.
Qed.
Lemma free_spec m s : In s (free m) <-> In s (m_surfaces m) /\ ~ In (s_id s) (grouped m).
Proof.
  unfold free. rewrite filter_In, negb_true_iff, <- existsb_in, not_true_iff_false. reflexivity.
Qed.
Lemma nodup_filter_map (f : MSurf F -> bool) l : NoDup (map s_id l) -> NoDup (map s_id (filter f l)).
Proof.
  induction l as [|x l IH]; intros H; [constructor|]. cbn [map] in H. apply NoDup_cons_iff in H as [H1 H2].
  cbn [filter]. destruct (f x); [|auto]. cbn [map]. constructor; [|auto].
  intros Hi. apply H1. apply in_map_iff in Hi as [y [E Hy]]. apply filter_In in Hy as [Hy _].
  apply in_map_iff. eauto.
Qed.
Lemma nodup_app {A} (a b : list A) : NoDup a -> NoDup b -> (forall x, In x a -> ~ In x b) -> NoDup (a ++ b).
Proof.
  induction 1 as [|x a Hx Ha IH]; intros Hb H; [assumption|]. cbn [app]. constructor.
  - rewrite in_app_iff. intros [H1|H1]; [tauto|]. apply (H x); [now left|assumption].
  - apply IH; [assumption|]. intros y Hy. apply H. now right.
Qed.
Lemma nodup_app_l {A} (a b : list A) : NoDup (a ++ b) -> NoDup a.
Proof.
  induction a as [|x a IH]; intros H; [constructor|]. cbn [app] in H. apply NoDup_cons_iff in H as [H1 H2].
  constructor; [|auto]. intros Hi. apply H1, in_or_app. now left.
Qed.

Section Exportable.
Variables (m : SModel F) (usides : list (Z * bool)) (rsides : PairedSigns).
Hypothesis E : exportable m usides rsides.

Lemma surface_ids_nodup : NoDup (map s_id (m_surfaces m)).
Proof. exact (nodup_app_l _ _ (e_ids _ _ _ E)). Qed.
Lemma group_items_known i : In i (flat_map snd (groups m)) -> In i (map s_id (m_surfaces m)).
Proof.
  rewrite group_items. intros H. apply in_app_or in H as [H|H]; [now apply (e_items _ _ _ E)|].
  apply in_map_iff in H as [s [<- H]]. apply free_spec in H as [H _]. now apply in_map.
Qed.
Lemma group_items_nodup : NoDup (flat_map snd (groups m)).
Proof.
  rewrite group_items. apply nodup_app.
  - apply E.
  - apply nodup_filter_map, surface_ids_nodup.
  - intros x Hx Hi. apply in_map_iff in Hi as [s [<- H]]. apply free_spec in H. tauto.
Qed.
Lemma group_items_perm : Permutation (flat_map snd (groups m)) (map s_id (m_surfaces m)).
Proof.
  apply NoDup_Permutation; [apply group_items_nodup|apply surface_ids_nodup|].
  intros x. split; [apply group_items_known|]. intros H. rewrite group_items. apply in_or_app.
  destruct (existsb (Z.eqb x) (grouped m)) eqn:Ex; [left; now apply existsb_in|right].
  apply in_map_iff in H as [s [<- H]]. apply in_map, free_spec. split; [assumption|].
  intros Hi. apply existsb_in in Hi. congruence.
Qed.
Lemma groups_secs : Forall2 (sec_of m) (groups m) (secs_of m).
Proof. apply secs_groups, E. Qed.
Lemma forall2_sec_ids gs (ss : list sec) : Forall2 (sec_of m) gs ss ->
  (forall i, In i (flat_map snd gs) -> In i (map s_id (m_surfaces m))) -> sec_ids ss = flat_map snd gs.
Proof.
  induction 1 as [|g s gs ss (H1 & H2 & _) _ IH]; intros Hk; [reflexivity|].
  unfold sec_ids in *. cbn [flat_map] in *. rewrite <- H2. rewrite surfs_ids, IH; [reflexivity| |];
    intros i Hi; apply Hk, in_or_app; auto.
Qed.
Lemma sec_ids_groups : sec_ids (secs_of m) = flat_map snd (groups m).
Proof. apply forall2_sec_ids; [apply groups_secs|apply group_items_known]. Qed.

Lemma unclassified_free : unclassified m = free m.
Proof.
  unfold unclassified, free. apply filter_ext. intros s. f_equal. apply eq_true_iff_eq. rewrite !existsb_in.
  unfold grouped. rewrite !in_app_iff. pose proof (e_others _ _ _ E (s_id s)) as H. unfold grouped in H.
  rewrite !in_app_iff in H. tauto.
Qed.
Lemma proper_good s : In s (m_surfaces m) -> good_surf s.
Proof.
  intros H. pose proof (e_surfaces _ _ _ E) as G. rewrite Forall_forall in G. destruct (G s H) as [H1 H2 H3].
  constructor; [assumption|exact H2|]. apply Forall_forall. intros l Hl. apply Forall_forall. intros e He. eauto.
Qed.
Lemma secs_surfaces s : In s (flat_map snd (secs_of m)) -> surface_of m (s_id s) = Ok s /\ In s (m_surfaces m).
Proof.
  intros H. apply in_flat_map in H as [c [Hc H]].
  assert (exists items, snd c = surfs m items) as [items Ei].
  { unfold secs_of in Hc. rewrite !in_app_iff, !in_map_iff in Hc.
    destruct Hc as [[x [<- _]]|[[x [<- _]]|[[x [<- _]]|[x [<- _]]]]]; cbn [snd]; eauto. }
  rewrite Ei in H. apply surfs_in in H. tauto.
Qed.
Lemma known_part f g : (forall i, In i f -> In i (flat_map snd (groups m))) -> f = g -> map s_id (surfs m g) = f.
Proof. intros H <-. apply surfs_ids. intros i Hi. now apply group_items_known, H. Qed.

Lemma sections_secs : sections_are uuid_text m (secs_of m).
Proof.
  constructor.
  - unfold sections, secs_of. rewrite unclassified_free, !map_app, !map_map.
    assert (K : forall i, In i (grouped m) -> In i (map s_id (m_surfaces m))) by apply E.
    unfold grouped in K. destruct (e_named _ _ _ E) as [Nf Nh].
    f_equal; [|f_equal; [|f_equal]]; apply map_ext_in; intros c Hc; cbn [fst snd]; rewrite surfs_ids; try reflexivity.
    + intros i Hi. apply K. rewrite !in_app_iff. left. apply in_flat_map. eauto.
    + specialize (Nf c Hc). unfold label, name_value. destruct (c_name c); [reflexivity|congruence].
    + intros i Hi. apply K. rewrite !in_app_iff. right; left. apply in_flat_map. eauto.
    + specialize (Nh c Hc). destruct (e_contact _ _ _ E c Hc).
      unfold label, name_value, htext. destruct (c_name c); [|congruence]. destruct (c_type c); congruence || reflexivity.
    + intros i Hi. apply K. rewrite !in_app_iff. right; right. apply in_flat_map. eauto.
    + intros i [<-|[]]. apply free_spec in Hc as [Hc _]. now apply in_map.
  - intros s Hs. apply secs_surfaces in Hs as [H1 H2]. split; [assumption|now apply proper_good].
  - rewrite sec_ids_groups. apply group_items_nodup.
Qed.

Lemma forall2_in_l {A B} (R : A -> B -> Prop) l r x : Forall2 R l r -> In x l -> exists y, In y r /\ R x y.
Proof. induction 1 as [|a b l r H _ IH]; [inversion 1|]. intros [->|Hi]; [exists b; cbn; auto|]. destruct (IH Hi) as [y [H1 H2]]. exists y; cbn; auto. Qed.
Lemma forall2_in_r {A B} (R : A -> B -> Prop) l r y : Forall2 R l r -> In y r -> exists x, In x l /\ R x y.
Proof. induction 1 as [|a b l r H _ IH]; [inversion 1|]. intros [->|Hi]; [exists a; cbn; auto|]. destruct (IH Hi) as [x [H1 H2]]. exists x; cbn; auto. Qed.

Lemma secs_good : Forall good_sec (secs_of m).
Proof.
  apply Forall_forall. intros s Hs. destruct (forall2_in_r _ _ _ _ groups_secs Hs) as [g [Hg (H1 & H2 & H3 & H4)]].
  constructor.
  - assumption.
  - rewrite <- H1. now apply (e_clean _ _ _ E).
  - apply Forall_forall. intros x Hx. apply proper_good, (secs_surfaces x). apply in_flat_map. eauto.
  - rewrite <- H2. apply surfs_nonempty; [|now apply (e_nonempty _ _ _ E)].
    intros i Hi. apply group_items_known, in_flat_map. eauto.
Qed.
Lemma secs_names : map (fun s : sec => snd (fst s)) (secs_of m) = map gname (groups m).
Proof. induction groups_secs as [|g s gs ss (H1 & _) _ IH]; [reflexivity|]. cbn [map]. now rewrite H1, IH. Qed.
Lemma secs_length : lenz (sec_ids (secs_of m)) = lenz (m_surfaces m).
Proof.
  rewrite sec_ids_groups. unfold lenz. rewrite (Permutation_length group_items_perm), map_length. reflexivity.
Qed.

Lemma model_good : good_model uuid_text m usides rsides (secs_of m).
Proof.
  assert (Ki : forall i, In i (map s_id (m_surfaces m)) -> In i (sec_ids (secs_of m))).
  { intros i Hi. rewrite sec_ids_groups. apply (Permutation_in _ (Permutation_sym group_items_perm) Hi). }
  destruct (e_size _ _ _ E) as (S1 & S2 & S3).
  constructor.
  - apply sections_secs.
  - apply secs_good.
  - rewrite secs_names. apply E.
  - intros s Hs. split; [|now apply (e_usides _ _ _ E)]. apply Ki, (e_items _ _ _ E). unfold grouped. apply in_or_app. now left.
  - apply Forall_forall. intros b Hb. destruct (e_blocks _ _ _ E b Hb) as (H1 & H2 & H3 & H4 & H5).
    constructor; auto. lia.
  - apply E.
  - rewrite sec_ids_groups. eapply Permutation_NoDup; [|apply (e_ids _ _ _ E)].
    apply Permutation_app_tail, Permutation_sym, group_items_perm.
  - apply Forall_forall. intros u Hu. destruct (e_units _ _ _ E u ltac:(apply in_or_app; now left)) as [[n [En Hn]] Hk].
    constructor; [congruence|unfold unit_name; now rewrite En|assumption].
  - apply Forall_forall. intros u Hu. destruct (e_units _ _ _ E u ltac:(apply in_or_app; now right)) as [[n [En Hn]] Hk].
    constructor; [congruence|unfold unit_name; now rewrite En|assumption].
  - now rewrite secs_length.
  - now rewrite secs_length.
Qed.

Lemma npts_perm (a b : list (MSurf F)) : Permutation a b -> npts a = npts b.
Proof.
  unfold npts. induction 1; cbn [map fold_right]; lia.
Qed.
Lemma npts_app (a b : list (MSurf F)) : npts (a ++ b) = npts a + npts b.
Proof. unfold npts. induction a as [|x a IH]; cbn [app map fold_right]; lia. Qed.
Lemma secs_surfaces_perm : Permutation (flat_map snd (secs_of m)) (m_surfaces m).
Proof.
  assert (Es : map s_id (flat_map snd (secs_of m)) = sec_ids (secs_of m)).
  { unfold sec_ids. induction (secs_of m) as [|s ss IH]; [reflexivity|]. cbn [flat_map]. now rewrite map_app, IH. }
  apply NoDup_Permutation.
  - apply (NoDup_map_inv s_id). rewrite Es, sec_ids_groups. apply group_items_nodup.
  - apply (NoDup_map_inv s_id), surface_ids_nodup.
  - intros s. split; [intros H; now apply secs_surfaces in H|]. intros H.
    assert (Hi : In (s_id s) (map s_id (flat_map snd (secs_of m)))).
    { rewrite Es, sec_ids_groups. apply (Permutation_in _ (Permutation_sym group_items_perm)). now apply in_map. }
    apply in_map_iff in Hi as [s' [Ei Hs']]. destruct (secs_surfaces s' Hs') as [H1 H2].
    replace s with s'; [assumption|].
    pose proof surface_ids_nodup as N. clear -N Ei H2 H. induction (m_surfaces m) as [|x l IH]; [inversion H|].
    cbn [map] in N. apply NoDup_cons_iff in N as [N1 N2].
    destruct H as [->|H], H2 as [->|H2]; auto.
    + exfalso. apply N1. rewrite <- Ei. now apply in_map.
    + exfalso. apply N1. rewrite Ei. now apply in_map.
Qed.
Lemma secs_points s : In s (secs_of m) -> 1 + npts (snd s) <= two32.
Proof.
  intros H. apply in_split in H as [a [b Hs]]. pose proof (npts_perm _ _ secs_surfaces_perm) as P.
  rewrite Hs, flat_map_app, npts_app in P. cbn [flat_map] in P. rewrite npts_app in P.
  pose proof (npts_nonneg (flat_map snd a)). pose proof (npts_nonneg (flat_map snd b)).
  destruct (e_size _ _ _ E) as (S1 & S2 & S3). unfold nb_points in S3. fold (npts (m_surfaces m)) in S3.
  unfold two32. lia.
Qed.

(** Collections *)
Lemma filter_all {A} (f : A -> bool) l : (forall x, In x l -> f x = true) -> filter f l = l.
Proof. induction l as [|x l IH]; intros H; [reflexivity|]. cbn [filter]. rewrite H by now left. f_equal. apply IH. intros; apply H; now right. Qed.
Lemma filter_none {A} (f : A -> bool) l : (forall x, In x l -> f x = false) -> filter f l = [].
Proof. induction l as [|x l IH]; intros H; [reflexivity|]. cbn [filter]. rewrite H by now left. apply IH. intros; apply H; now right. Qed.

Definition nb : Z -> Z := pos (sec_ids (secs_of m)).
Definition loaded_colls : list CollIn :=
  map (fun g => mkCollIn (fst (fst g)) (gname g) (map nb (snd g))) (groups m).
Lemma filter_app_z {A} (f : A -> bool) a b : filter f (a ++ b) = filter f a ++ filter f b.
Proof. induction a as [|x a IH]; [reflexivity|]. cbn [app filter]. destruct (f x); cbn [app]; now rewrite IH. Qed.
Lemma boundary_surfaces : flat_map ci_surfaces (filter is_boundary loaded_colls)
  = map nb (flat_map c_items (m_bounds m)) ++ map nb (map s_id (free m)).
Proof.
  unfold loaded_colls, groups. rewrite !map_app, !filter_app_z, !map_map, !flat_map_app.
  rewrite (filter_all is_boundary (map _ (m_bounds m))) by (intros x Hx; apply in_map_iff in Hx as [c [<- _]]; reflexivity).
  rewrite (filter_none is_boundary (map _ (m_faults m))) by (intros x Hx; apply in_map_iff in Hx as [c [<- _]]; reflexivity).
  rewrite (filter_none is_boundary (map _ (m_horizons m))) by (intros x Hx; apply in_map_iff in Hx as [c [<- _]]; reflexivity).
  rewrite (filter_all is_boundary (map _ (free m))) by (intros x Hx; apply in_map_iff in Hx as [c [<- _]]; reflexivity).
  cbn [flat_map app]. rewrite !flat_map_map. cbn [ci_surfaces snd]. f_equal.
  induction (m_bounds m) as [|x l IH]; [reflexivity|]. cbn [flat_map]. now rewrite map_app, IH.
Qed.
Lemma nb_inj a b : In a (map s_id (m_surfaces m)) -> In b (map s_id (m_surfaces m)) -> nb a = nb b -> a = b.
Proof.
  intros Ha Hb. apply pos_inj; rewrite sec_ids_groups; (eapply Permutation_in; [apply Permutation_sym, group_items_perm|assumption]).
Qed.
Lemma create_tsurfs_ok bls us fs : exists more,
  create_tsurfs (mkMlSt (filled 0 (secs_of m)) (sec_names (secs_of m)) (map nb (flat_map c_items (m_bounds m))) bls us fs)
  = Ok (loaded_colls ++ more) /\ (free m = [] -> more = []) /\ Forall (fun c => ci_kind c = KBoundary) more /\
    (free m <> [] -> more = [mkCollIn KBoundary (lit "undefined boundary") (map nb (map s_id (free m)))]).
Proof.
  unfold create_tsurfs. cbn [i_tsurfs i_universe].
  rewrite filled_pos0 by apply sections_secs. rewrite mapM_map. cbn [tm_feature tm_name tm_faces].
  assert (Em : mapM (fun s : sec => do k <- kind_of (fst (fst s));
                 Ok (mkCollIn k (snd (fst s)) (map (pos (sec_ids (secs_of m))) (map s_id (snd s))))) (secs_of m) = Ok loaded_colls).
  { unfold loaded_colls. fold nb. pose proof group_items_known as K. induction groups_secs as [|g s gs ss (H1 & H2 & H3 & H4) _ IH]; [reflexivity|].
    cbn [mapM map]. rewrite H4. cbn [bind]. rewrite <- H2, surfs_ids by (intros i Hi; apply K; cbn [flat_map]; apply in_or_app; now left).
    rewrite IH by (intros i Hi; apply K; cbn [flat_map]; apply in_or_app; now right). cbn [bind]. now rewrite H1. }
  rewrite Em. cbn [bind]. rewrite boundary_surfaces, filter_app_z.
  rewrite filter_none.
  2:{ intros x Hx. apply negb_false_iff. now apply existsb_in. }
  cbn [app]. rewrite filter_all.
  2:{ intros x Hx. apply negb_true_iff, not_true_iff_false. rewrite existsb_in. intros Hi.
      apply in_map_iff in Hx as [a [<- Ha]]. apply in_map_iff in Hi as [b [Eb Hb]].
      assert (In b (grouped m)) as Hg by (unfold grouped; apply in_or_app; now left).
      apply nb_inj in Eb; [|now apply (e_items _ _ _ E)|].
      - subst b. apply in_map_iff in Ha as [s [<- Hs]]. apply free_spec in Hs. tauto.
      - apply in_map_iff in Ha as [s [<- Hs]]. apply free_spec in Hs. now apply in_map. }
  destruct (map nb (map s_id (free m))) eqn:Ef.
  - exists []. rewrite app_nil_r. split; [reflexivity|]. split; [reflexivity|]. split; [constructor|].
    intros Hf. exfalso. apply Hf. destruct (free m); [reflexivity|discriminate].
  - eexists. split; [reflexivity|]. split; [intros Hf; rewrite Hf in Ef; discriminate|]. split; [repeat constructor|reflexivity].
Qed.

Lemma unit_same u : In u (m_units m ++ m_fblocks m) -> same_unit m u (unit_like (map b_id (m_blocks m)) u).
Proof.
  intros Hu. destruct (e_units _ _ _ E u Hu) as [[n [En Hn]] Hk]. unfold same_unit, unit_like, unit_name. rewrite En. cbn [fst snd].
  split; [reflexivity|]. rewrite <- (map_id (c_items u)) at 1. apply Forall2_map_both. intros b Hb.
  split; [now apply pos_nth, Hk|apply pos_nonneg].
Qed.
End Exportable.
End Spec.

Lemma rangez_nodup c n : NoDup (rangez c n).
Proof.
  revert c. induction n as [|n IH]; intros k; [constructor|]. cbn [rangez]. constructor; [|apply IH].
  intros Hi. apply in_rangez in Hi. lia.
Qed.

Section RoundTrip.
Context {F : Num}.
Variable uuid_text : Z -> bytes.

Theorem ML_round_trip (m : SModel F) usides rsides :
  num_ok F -> coords_not_keywords F -> exportable uuid_text m usides rsides ->
  exists text out nb, write_ml uuid_text m usides rsides = Ok text /\ read_ml F text = Ok out /\ same_model uuid_text m out nb.
Proof.
  intros HF HK E. pose proof (model_good uuid_text m usides rsides E) as G.
  assert (W : exists text, write_ml uuid_text m usides rsides = Ok text).
  { unfold write_ml. rewrite (write_ml_ok uuid_text m usides rsides _ G). eexists. reflexivity. }
  destruct W as [text W]. exists text.
  destruct (read_ml_ok HF HK uuid_text m usides rsides _ text G) as [bls [FB R]]; [apply E| |assumption|].
  { intros s Hs. now apply (secs_points uuid_text m usides rsides E). }
  destruct (create_tsurfs_ok uuid_text m usides rsides E bls
     (map (unit_like (map b_id (m_blocks m))) (m_units m)) (map (unit_like (map b_id (m_blocks m))) (m_fblocks m))) as [more [C [Hm [Hk Hun]]]].
  specialize (R _ C). eexists. exists (nb uuid_text m). split; [assumption|]. split; [exact R|].
  pose proof (secs_length uuid_text m usides rsides E) as SL.
  pose proof (sa_nodup _ _ _ (gm_sections _ _ _ _ _ G)) as N.
  constructor; cbn [o_title o_surfaces o_meshes o_colls o_blocks o_units o_fblocks].
  - reflexivity.
  - apply (nb_inj uuid_text m usides rsides E).
  - rewrite sec_names_length. split; [assumption|]. intros a Ha. rewrite <- SL. apply pos_range.
    rewrite (sec_ids_groups uuid_text m usides rsides E). eapply Permutation_in; [apply Permutation_sym, (group_items_perm uuid_text m usides rsides E)|assumption].
  - split.
    + rewrite all_meshes_fst. apply rangez_nodup.
    + unfold lenz. rewrite <- (map_length fst), all_meshes_fst, rangez_length. exact SL.
  - intros s Hs.
    destruct (all_meshes_in [] (secs_of uuid_text m) [] s) as [n [Hi Hn]].
    + cbn [app]. now rewrite app_nil_r.
    + eapply Permutation_in; [apply Permutation_sym, (secs_surfaces_perm uuid_text m usides rsides E)|assumption].
    + cbn [app] in Hi. rewrite app_nil_r in Hi. exists (mesh_of n s). split; [exact Hi|]. split; [reflexivity|].
      cbn [mesh_of m_points]. rewrite <- (map_id (s_points s)) at 1. apply Forall2_map_both. intros p _. now apply reread_rp.
  - exists more. split; [reflexivity|assumption].
  - exists more. split; [reflexivity|assumption].
  - intros Hf. now rewrite (Hun Hf).
  - exact FB.
  - rewrite <- (map_id (m_units m)) at 1. apply Forall2_map_both. intros u Hu.
    apply (unit_same uuid_text m usides rsides E). apply in_or_app. now left.
  - rewrite <- (map_id (m_fblocks m)) at 1. apply Forall2_map_both. intros u Hu.
    apply (unit_same uuid_text m usides rsides E). apply in_or_app. now right.
Qed.
End RoundTrip.

(** ** C38: numbers of the components *)

Lemma ok_inj {A} (a b : A) : Ok a = Ok b -> a = b.
Proof. congruence. Qed.
Lemma ok_pair {A B} (a c : A) (b d : B) : Ok (a, b) = Ok (c, d) -> a = c /\ b = d.
Proof. intros H. split; congruence. Qed.

(** The number shown on a TFACE or REGION line. *)
Definition component_number (l : bytes) : list bytes :=
  match words l with
  | kw :: n :: _ => if beq kw "TFACE" || beq kw "REGION" then [n] else []
  | _ => []
  end.
(** [part] appears in [lines] as consecutive lines. *)
Definition appears (part lines : list bytes) : Prop := exists a b, lines = a ++ part ++ b.
(** A signed reference to the surface [s], given the surfaces in the order of their numbers. *)
Definition refers (declared : list Z) (s : Z) (e : bytes) : Prop :=
  exists (plus : bool) k, nth_error declared k = Some s /\
    e = (if plus then "+"%char else "-"%char) :: show (Z.of_nat k + 1).

Definition kwd (e : bytes) : Prop := e = lit "TFACE" \/ e = lit "REGION".
Lemma cn_words w r l : words l = w :: r -> ~ kwd w -> component_number l = [].
Proof.
  intros H N. unfold component_number. rewrite H. destruct r; [reflexivity|].
  unfold kwd in N. rewrite !(proj2 (beq_neq _ _)) by tauto. reflexivity.
Qed.
Lemma cn_wrap es k done : Forall token es -> Forall token done ->
  (forall e, In e (done ++ es) -> ~ kwd e) ->
  flat_map component_number (wrap_ids (SP :: SP :: padded done) k es) = [].
Proof.
  assert (Q : forall done l, Forall token done -> (forall e, In e done -> ~ kwd e) -> (words l = [] \/ words l = [lit "0"]) ->
            component_number (SP :: SP :: padded done ++ l) = []).
  { intros d l Hd Hk Hl.
    assert (Ew : words (SP :: SP :: padded d ++ l) = d ++ words l).
    { rewrite !words_sep by reflexivity. now apply words_padded. }
    destruct d as [|e d].
    - destruct Hl as [Hl|Hl]; rewrite Hl in Ew; cbn [app] in Ew.
      + unfold component_number. now rewrite Ew.
      + eapply cn_words; [exact Ew|]. intros [H|H]; discriminate.
    - eapply cn_words; [exact Ew|]. apply Hk. now left. }
  intros He. revert k done. induction He as [|e es He Hes IH]; intros k done Hd Hk; cbn [wrap_ids flat_map].
  - rewrite app_nil_r in Hk. change ((SP :: SP :: padded done) ++ lit "0") with (SP :: SP :: padded done ++ lit "0").
    rewrite Q; auto.
  - replace ((SP :: SP :: padded done) ++ e ++ [SP; SP]) with (SP :: SP :: padded (done ++ [e])).
    2:{ unfold padded. rewrite flat_map_app. cbn [flat_map app]. now rewrite app_nil_r. }
    assert (Hd2 : Forall token (done ++ [e])) by (apply Forall_app; auto).
    destruct (Nat.eqb (S k mod 5) 0).
    + cbn [flat_map]. rewrite <- (app_nil_r (padded (done ++ [e]))). rewrite Q; [|assumption| |now left].
      2:{ intros x Hx. apply Hk. apply in_app_or in Hx as [Hx|[->|[]]]; apply in_or_app; [now left|right; now left]. }
      cbn [app]. change [SP; SP] with (SP :: SP :: padded []). apply IH; [constructor|].
      intros x Hx. apply Hk, in_or_app. right. now right.
    + apply IH; [assumption|]. rewrite <- app_assoc. exact Hk.
Qed.
Lemma cn_id_lines es : Forall token es -> (forall e, In e es -> ~ kwd e) -> flat_map component_number (id_lines es) = [].
Proof. intros H Hk. unfold id_lines. change [SP; SP] with (SP :: SP :: padded []). apply cn_wrap; [assumption|constructor|exact Hk]. Qed.
Lemma cn_tface n k nm : 0 <= n -> component_number (tface_line_of n k nm) = [show n].
Proof.
  intros H. unfold component_number, tface_line_of. change (lit "TFACE ") with (lit "TFACE" ++ [SP]). rewrite <- app_assoc. cbn [app].
  rewrite words_tok_sep by (reflexivity || tok). rewrite words_tok_sep by (reflexivity || (apply show_token; lia)). reflexivity.
Qed.
Lemma cn_region n r : 0 <= n -> component_number (lit "REGION " ++ show n ++ SP :: r) = [show n].
Proof.
  intros H. unfold component_number. change (lit "REGION ") with (lit "REGION" ++ [SP]). rewrite <- app_assoc. cbn [app].
  rewrite words_tok_sep by (reflexivity || tok). rewrite words_tok_sep by (reflexivity || (apply show_token; lia)). reflexivity.
Qed.
Lemma cn_kw kw r : token kw -> ~ kwd kw -> component_number (kw ++ SP :: r) = [].
Proof. intros Ht Hk. eapply cn_words; [now apply words_tok_sep|assumption]. Qed.
Lemma show_not_kwd n : 0 <= n -> ~ kwd (show n).
Proof.
  intros Hn H. destruct (show_spec n Hn) as [_ [_ H3]]. destruct H as [H|H]; rewrite H in H3; vm_compute in H3; discriminate.
Qed.
Lemma appears_app_l p a b : appears p a -> appears p (a ++ b).
Proof. intros [x [y ->]]. exists x, (y ++ b). now rewrite <- !app_assoc. Qed.
Lemma appears_app_r p a b : appears p b -> appears p (a ++ b).
Proof. intros [x [y ->]]. exists (a ++ x), y. now rewrite <- !app_assoc. Qed.
Lemma appears_self p : appears p p.
Proof. exists [], []. now rewrite app_nil_r. Qed.

Section Numbers.
Context {F : Num} (HF : num_ok F) (HK : coords_not_keywords F).
Variable uuid_text : Z -> bytes.
Variable m : SModel F.

Lemma cn_key (p : point F) : component_number (SP :: SP :: point_string p) = [].
Proof.
  destruct p as [[x y] z].
  eapply (cn_words (pt_text F x)).
  - rewrite !words_sep by reflexivity. unfold point_string. rewrite words_tok_sep; [reflexivity|apply HF|reflexivity].
  - intros H. apply (HK x). destruct H as [H|H]; rewrite H; cbn; tauto.
Qed.
Lemma cn_keys s ks : key_lines (F:=F) s = Ok ks -> flat_map component_number ks = [].
Proof.
  intros H. unfold key_lines in H. apply bind_ok in H as [[[a b] c] [_ H]].
  cbn [mapM] in H.
  repeat (match type of H with bind _ _ = Ok _ => let e := fresh "e" in let He := fresh "He" in apply bind_ok in H as [e [He H]] end).
  apply ok_inj in H as <-.
  repeat match goal with H : bind _ _ = Ok _ |- _ => let e := fresh "e" in let He := fresh "He" in apply bind_ok in H as [e [He H]] end.
  repeat match goal with H : Ok _ = Ok _ |- _ => injection H as H; subst end.
  cbn [flat_map]. now rewrite !cn_key.
Qed.

Record declares (ls : list bytes) (st : Comps) (declared : list Z) : Prop := {
  d_comps : comps st = numbered 1 declared;
  d_next : next_id st = 1 + lenz declared;
  d_nodup : NoDup declared;
  d_numbers : flat_map component_number ls = map show (rangez 1 (List.length declared));
  d_faces : forall k i, nth_error declared k = Some i -> exists s ks kind name,
      surface_of m i = Ok s /\ key_lines s = Ok ks /\ appears (tface_line_of (Z.of_nat k + 1) kind name :: ks) ls
}.
Lemma declare_item kind name ls st declared item ls' st' :
  declares ls st declared -> write_tface_item m kind name (ls, st) item = Ok (ls', st') ->
  exists declared', declares ls' st' declared' /\ (forall i, In i declared' <-> In i declared \/ i = item).
Proof.
  intros D H. unfold write_tface_item in H. rewrite (d_comps _ _ _ D) in H.
  destruct (in_dec Z.eq_dec item declared) as [Hi|Hi].
  - rewrite find_numbered in H by assumption. apply bind_ok in H as [n [_ H]]. apply ok_pair in H as [<- <-].
    exists declared. split; [assumption|]. intros i. split; [tauto|]. intros [Hx| ->]; assumption.
  - rewrite find_numbered_none in H by assumption.
    apply bind_ok in H as [k [_ H]]. apply bind_ok in H as [n [_ H]]. apply bind_ok in H as [s [Hs H]].
    apply bind_ok in H as [ks [Hks H]]. apply ok_pair in H as [<- <-].
    exists (declared ++ [item]). split.
    + rewrite (d_next _ _ _ D). constructor; cbn [comps next_id].
      * unfold emplace_id. rewrite find_numbered_none by assumption. now rewrite <- numbered_snoc.
      * rewrite lenz_snoc. lia.
      * apply nodup_app; [apply D|repeat constructor; intros []|]. intros x Hx [->|[]]. tauto.
      * rewrite flat_map_app, (d_numbers _ _ _ D). cbn [flat_map]. pose proof (lenz_nonneg declared).
        rewrite cn_tface by lia. rewrite (cn_keys s ks Hks).
        rewrite app_length, Nat.add_1_r, rangez_S, map_app. reflexivity.
      * intros j i Hj. destruct (Nat.lt_ge_cases j (List.length declared)) as [Hl|Hl].
        -- rewrite nth_error_app1 in Hj by assumption. destruct (d_faces _ _ _ D j i Hj) as (s' & ks' & k' & n' & H1 & H2 & H3).
           exists s', ks', k', n'. split; [assumption|]. split; [assumption|]. now apply appears_app_l.
        -- rewrite nth_error_app2 in Hj by assumption. destruct (j - List.length declared)%nat eqn:Ej.
           2:{ destruct n0; discriminate. }
           injection Hj as <-. exists s, ks, k, n. split; [assumption|]. split; [assumption|].
           apply appears_app_r. replace (Z.of_nat j + 1) with (1 + lenz declared) by (unfold lenz; lia). apply appears_self.
    + intros i. rewrite in_app_iff. cbn [In]. intuition.
Qed.
Lemma declare_items kind name items : forall ls st declared ls' st',
  declares ls st declared -> foldM (write_tface_item m kind name) items (ls, st) = Ok (ls', st') ->
  exists declared', declares ls' st' declared' /\ (forall i, In i declared' <-> In i declared \/ In i items).
Proof.
  induction items as [|x items IH]; intros ls st declared ls' st' D H; cbn [foldM] in H.
  - apply ok_pair in H as [<- <-]. exists declared. split; [assumption|]. cbn [In]. tauto.
  - apply bind_ok in H as [[ls1 st1] [H1 H]]. destruct (declare_item _ _ _ _ _ _ _ _ D H1) as [d1 [D1 I1]].
    destruct (IH _ _ _ _ _ D1 H) as [d2 [D2 I2]]. exists d2. split; [assumption|].
    intros i. rewrite I2, I1. cbn [In]. intuition.
Qed.
Lemma declare_sections (secs : list (res bytes * res bytes * list Z)) : forall ls st declared ls' st',
  declares ls st declared ->
  foldM (fun acc c => let '(k, n, items) := c in foldM (write_tface_item m k n) items acc) secs (ls, st) = Ok (ls', st') ->
  exists declared', declares ls' st' declared' /\ (forall i, In i declared' <-> In i declared \/ In i (flat_map snd secs)).
Proof.
  induction secs as [|[[k n] items] secs IH]; intros ls st declared ls' st' D H; cbn [foldM] in H.
  - apply ok_pair in H as [<- <-]. exists declared. split; [assumption|]. cbn [In flat_map]. tauto.
  - apply bind_ok in H as [[ls1 st1] [H1 H]]. destruct (declare_items _ _ _ _ _ _ _ _ D H1) as [d1 [D1 I1]].
    destruct (IH _ _ _ _ _ D1 H) as [d2 [D2 I2]]. exists d2. split; [assumption|].
    intros i. rewrite I2, I1. cbn [flat_map snd]. rewrite in_app_iff. tauto.
Qed.
End Numbers.

Section Regions2.
Context {F : Num} (HF : num_ok F) (HK : coords_not_keywords F).
Variable uuid_text : Z -> bytes.
Variable m : SModel F.

Lemma numbered_find declared x k : NoDup declared -> find_id (numbered 1 declared) x = Some k -> 
  exists j, nth_error declared j = Some x /\ k = Z.of_nat j + 1.
Proof.
  intros N H. destruct (in_dec Z.eq_dec x declared) as [Hi|Hi].
  - rewrite find_numbered in H by assumption. assert (Hk : k = 1 + pos declared x) by congruence. rewrite Hk. exists (Z.to_nat (pos declared x)).
    split; [now apply pos_nth|]. pose proof (pos_nonneg declared x). lia.
  - rewrite find_numbered_none in H by assumption. discriminate.
Qed.
Lemma refers_token declared s e : refers declared s e -> token e /\ ~ kwd e.
Proof.
  intros [p [k [_ ->]]]. split.
  - apply (signed_token p). lia.
  - intros H. destruct p, H as [H|H]; discriminate.
Qed.
Lemma refers_all declared ss es : Forall2 (refers declared) ss es -> Forall token es /\ (forall e, In e es -> ~ kwd e).
Proof.
  induction 1 as [|s e ss es H _ [IH1 IH2]]; [split; [constructor|intros _ []]|].
  apply refers_token in H as [H1 H2]. split; [constructor; assumption|]. intros x [<-|Hx]; auto.
Qed.
(** The map of numbers still gives the numbers of the surfaces. *)
Definition keeps (st : Comps) (declared surfaces : list Z) : Prop :=
  forall x, In x surfaces -> find_id (comps st) x = find_id (numbered 1 declared) x.

Lemma universe_number usides st declared ls st' :
  comps st = numbered 1 declared -> NoDup declared -> 0 <= next_id st ->
  write_universe m usides st = Ok (ls, st') ->
  comps st' = comps st /\ next_id st' = next_id st + 1 /\ flat_map component_number ls = [show (next_id st)] /\
  exists es, Forall2 (refers declared) (flat_map c_items (m_bounds m)) es /\
    ls = (lit "REGION " ++ show (next_id st) ++ lit "  Universe ") :: id_lines es.
Proof.
  intros C N Hn H. unfold write_universe in H. apply bind_ok in H as [es [He H]]. apply ok_pair in H as [<- <-].
  cbn [comps next_id]. split; [reflexivity|]. split; [reflexivity|].
  assert (R : Forall2 (refers declared) (flat_map c_items (m_bounds m)) es).
  { apply mapM_ok in He. induction He as [|s e ss es Hx _ IH]; constructor; [|assumption].
    apply bind_ok in Hx as [side [_ Hx]]. apply bind_ok in Hx as [k [Hk Hx]]. apply ok_inj in Hx as <-.
    unfold comp_at in Hk. rewrite C in Hk. destruct (find_id (numbered 1 declared) s) as [k'|] eqn:Ek; [|discriminate].
    injection Hk as ->. apply numbered_find in Ek as [j [Hj ->]]; [|assumption]. exists side, j. auto. }
  split; [|exists es; auto].
  destruct (refers_all _ _ _ R) as [T K]. cbn [flat_map]. rewrite cn_id_lines by assumption.
  change (lit "  Universe ") with (SP :: lit " Universe "). rewrite cn_region by lia. reflexivity.
Qed.

Definition region_text (n : Z) (b : MBlock) (es : list bytes) : list bytes :=
  (lit "REGION " ++ show n ++ SP :: underscored (label uuid_text (b_name b) (b_id b))) :: id_lines es.
Lemma region_number rsides ls st b ls' st' declared :
  keeps st declared (b_boundaries b ++ b_internals b) -> NoDup declared -> 0 <= next_id st ->
  write_region uuid_text rsides (ls, st) b = Ok (ls', st') ->
  next_id st' = next_id st + 1 /\ comps st' = emplace_id (comps st) (b_id b) (next_id st) /\
  flat_map component_number ls' = flat_map component_number ls ++ [show (next_id st)] /\
  exists es, Forall2 (refers declared) (b_boundaries b ++ flat_map (fun s => [s; s]) (b_internals b)) es /\
    ls' = ls ++ region_text (next_id st) b es.
Proof.
  intros K N Hn H. unfold write_region in H. apply bind_ok in H as [es [He H]]. apply bind_ok in H as [is [Hi H]].
  apply ok_pair in H as [<- <-]. cbn [comps next_id]. split; [reflexivity|]. split; [reflexivity|].
  assert (R : Forall2 (refers declared) (b_boundaries b ++ flat_map (fun s => [s; s]) (b_internals b)) (es ++ List.concat is)).
  { apply Forall2_app.
    - apply mapM_ok in He. assert (K1 : keeps st declared (b_boundaries b)) by (intros x Hx; apply K, in_or_app; now left).
      clear -He K1 N. induction He as [|s e ss es Hx _ IH]; constructor.
      + apply bind_ok in Hx as [side [_ Hx]]. apply bind_ok in Hx as [k [Hk Hx]]. apply ok_inj in Hx as <-.
        unfold comp_at in Hk. rewrite K1 in Hk by now left. destruct (find_id (numbered 1 declared) s) as [k'|] eqn:Ek; [|discriminate].
        injection Hk as ->. apply numbered_find in Ek as [j [Hj ->]]; [|assumption]. exists side, j. auto.
      + apply IH. intros x Hx'. apply K1. now right.
    - apply mapM_ok in Hi. assert (K1 : keeps st declared (b_internals b)) by (intros x Hx; apply K, in_or_app; now right).
      clear -Hi K1 N. induction Hi as [|s e ss es Hx _ IH]; [constructor|]. cbn [flat_map List.concat].
      apply Forall2_app.
      + apply bind_ok in Hx as [k [Hk Hx]]. apply ok_inj in Hx as <-.
        unfold comp_at in Hk. rewrite K1 in Hk by now left. destruct (find_id (numbered 1 declared) s) as [k'|] eqn:Ek; [|discriminate].
        injection Hk as ->. apply numbered_find in Ek as [j [Hj ->]]; [|assumption].
        constructor; [exists true, j; auto|]. constructor; [exists false, j; auto|]. constructor.
      + apply IH. intros x Hx'. apply K1. now right. }
  destruct (refers_all _ _ _ R) as [T Kk]. split.
  - rewrite flat_map_app. cbn [flat_map]. rewrite cn_id_lines by assumption. rewrite cn_region by lia. reflexivity.
  - exists (es ++ List.concat is). split; [assumption|]. reflexivity.
Qed.
Lemma emplace_keeps st declared surfaces b n : keeps st declared surfaces -> ~ In b surfaces ->
  keeps (mkComps (emplace_id (comps st) b n) (n + 1)) declared surfaces.
Proof.
  intros K Hb x Hx. cbn [comps]. rewrite <- K by assumption. unfold emplace_id.
  destruct (find_id (comps st) b); [reflexivity|].
  destruct (find_id (comps st) x) eqn:Ex; [now apply find_id_app_l|].
  rewrite find_id_app_r by assumption. rewrite find_id_cons. rewrite (proj2 (Z.eqb_neq _ _)) by congruence. reflexivity.
Qed.
Lemma regions_numbers rsides declared surfaces : NoDup declared -> forall bs ls st ls' st',
  (forall b s, In b bs -> In s (b_boundaries b ++ b_internals b) -> In s surfaces) ->
  (forall b, In b bs -> ~ In (b_id b) surfaces) ->
  keeps st declared surfaces -> 0 <= next_id st ->
  foldM (write_region uuid_text rsides) bs (ls, st) = Ok (ls', st') ->
  flat_map component_number ls' = flat_map component_number ls ++ map show (rangez (next_id st) (List.length bs)) /\
  (exists more, ls' = ls ++ more) /\ 
  forall j b, nth_error bs j = Some b -> exists es,
    Forall2 (refers declared) (b_boundaries b ++ flat_map (fun s => [s; s]) (b_internals b)) es /\
    appears (region_text (next_id st + Z.of_nat j) b es) ls'.
Proof.
  intros N. induction bs as [|b bs IH]; intros ls st ls' st' Hk Hd K Hn H; cbn [foldM] in H.
  - apply ok_pair in H as [<- <-]. cbn [List.length rangez map]. rewrite app_nil_r. split; [reflexivity|].
    split; [exists []; now rewrite app_nil_r|]. intros [|j] b; discriminate.
  - apply bind_ok in H as [[ls1 st1] [H1 H]].
    destruct (region_number rsides ls st b ls1 st1 declared) as (E1 & E2 & E3 & es & R & E4); try assumption.
    { intros x Hx. apply K, (Hk b x); [now left|assumption]. }
    assert (K1 : keeps st1 declared surfaces).
    { destruct st1 as [c1 n1]. cbn [comps next_id] in E1, E2. rewrite E1, E2. apply emplace_keeps; [assumption|].
      apply Hd. now left. }
    destruct (IH ls1 st1 ls' st') as (F1 & [more F2] & F3); try assumption.
    { intros b' s' Hb'. apply Hk. now right. }
    { intros b' Hb'. apply Hd. now right. }
    { lia. }
    rewrite E1 in F1, F3. split; [|split].
    + rewrite F1, E3, <- app_assoc. reflexivity.
    + exists (region_text (next_id st) b es ++ more). rewrite F2, E4, <- app_assoc. reflexivity.
    + intros [|j] b' Hj.
      * injection Hj as <-. exists es. split; [assumption|]. rewrite Z.add_0_r, F2, E4.
        apply appears_app_l, appears_app_r, appears_self.
      * destruct (F3 j b' Hj) as [es' [R' A']]. exists es'. split; [assumption|].
        replace (next_id st + Z.of_nat (S j)) with (next_id st + 1 + Z.of_nat j) by lia. assumption.
Qed.
Lemma unit_quiet kw st u ls : token kw -> ~ kwd kw -> (forall x k, find_id (comps st) x = Some k -> 0 <= k) ->
  write_unit (kw ++ [SP]) st u = Ok ls -> flat_map component_number ls = [].
Proof.
  intros Ht Hk Hp H. unfold write_unit in H. apply bind_ok in H as [n [_ H]]. apply bind_ok in H as [es [He H]].
  apply ok_inj in H as <-. cbn [flat_map]. rewrite <- app_assoc. cbn [app]. rewrite cn_kw by assumption.
  assert (T : Forall (fun e => exists k, 0 <= k /\ e = show k) es).
  { apply mapM_ok in He. induction He as [|s e ss es Hx _ IH]; constructor; [|assumption].
    apply bind_ok in Hx as [k [Hx H]]. apply ok_inj in H as <-. unfold comp_at in Hx.
    destruct (find_id (comps st) s) eqn:E; [|discriminate]. injection Hx as ->. exists k. split; eauto. }
  cbn [app]. apply cn_id_lines.
  - eapply Forall_impl; [|exact T]. intros e [k [H1 ->]]. apply show_token. lia.
  - rewrite Forall_forall in T. intros e He'. destruct (T e He') as [k [H1 ->]]. now apply show_not_kwd.
Qed.
Lemma units_quiet kw st us ls : token kw -> ~ kwd kw -> (forall x k, find_id (comps st) x = Some k -> 0 <= k) ->
  mapM (write_unit (kw ++ [SP]) st) us = Ok ls -> flat_map component_number (List.concat ls) = [].
Proof.
  intros Ht Hk Hp H. apply mapM_ok in H. induction H as [|u l us ls Hx _ IH]; [reflexivity|].
  cbn [List.concat]. rewrite flat_map_app, IH, (unit_quiet kw st u l) by assumption. reflexivity.
Qed.
Lemma find_emplace (c : list (Z * Z)) a n x k : find_id (emplace_id c a n) x = Some k -> find_id c x = Some k \/ k = n.
Proof.
  unfold emplace_id. destruct (find_id c a); [auto|]. destruct (find_id c x) as [k'|] eqn:E.
  - rewrite (find_id_app_l _ _ _ k') by assumption. auto.
  - rewrite find_id_app_r by assumption. rewrite find_id_cons. destruct (a =? x); [|discriminate]. intros [= <-]. auto.
Qed.
Lemma regions_positive rsides : forall bs ls st ls' st', 0 <= next_id st ->
  (forall x k, find_id (comps st) x = Some k -> 0 <= k) ->
  foldM (write_region uuid_text rsides) bs (ls, st) = Ok (ls', st') ->
  forall x k, find_id (comps st') x = Some k -> 0 <= k.
Proof.
  induction bs as [|b bs IH]; intros ls st ls' st' Hn Hp H; cbn [foldM] in H.
  - apply ok_pair in H as [<- <-]. assumption.
  - apply bind_ok in H as [[ls1 st1] [H1 H]]. unfold write_region in H1.
    apply bind_ok in H1 as [es [He H1]]. apply bind_ok in H1 as [is [Hi H1]]. apply ok_pair in H1 as [<- <-].
    eapply IH; [| |exact H]; cbn [comps next_id]; [lia|]. intros x k Hx. apply find_emplace in Hx as [Hx| ->]; eauto.
Qed.

(** What a component section contains. *)
Record numbered_section (lines : list bytes) (declared : list Z) : Prop := {
  (* each surface is declared once: those of the collections, and those of no collection *)
  ns_nodup : NoDup declared;
  ns_which : forall i, In i declared <->
     In i (grouped m) \/ (In i (map s_id (m_surfaces m)) /\ ~ In i (grouped m) /\ ~ In i (m_others m));
  (* the numbers are 1, 2, 3, ... *)
  ns_numbers : flat_map component_number lines
    = map show (rangez 1 (List.length declared + 1 + List.length (m_blocks m)));
  (* the number of a surface is on a TFACE line followed by the points of its first triangle *)
  ns_faces : forall k i, nth_error declared k = Some i -> exists s ks kind name,
     surface_of m i = Ok s /\ key_lines s = Ok ks /\ appears (tface_line_of (Z.of_nat k + 1) kind name :: ks) lines;
  (* the universe comes next, the blocks follow; they refer to declared surfaces *)
  ns_universe : exists es, Forall2 (refers declared) (flat_map c_items (m_bounds m)) es /\
     appears ((lit "REGION " ++ show (lenz declared + 1) ++ lit "  Universe ") :: id_lines es) lines;
  ns_blocks : forall j b, nth_error (m_blocks m) j = Some b -> exists es,
     Forall2 (refers declared) (b_boundaries b ++ flat_map (fun s => [s; s]) (b_internals b)) es /\
     appears (region_text (lenz declared + 2 + Z.of_nat j) b es) lines
}.

Theorem components_numbered usides rsides lines :
  NoDup (map s_id (m_surfaces m) ++ map b_id (m_blocks m)) ->
  (forall b s, In b (m_blocks m) -> In s (b_boundaries b ++ b_internals b) -> In s (map s_id (m_surfaces m))) ->
  write_components uuid_text m usides rsides = Ok lines -> exists declared, numbered_section lines declared.
Proof.
  intros N Hb H. unfold write_components in H.
  apply bind_ok in H as [l1 [E1 H]]. apply bind_ok in H as [[l2 st2] [E2 H]].
  apply bind_ok in H as [[l3 st3] [E3 H]]. apply bind_ok in H as [[l4 st4] [E4 H]].
  apply bind_ok in H as [l5 [E5 H]]. apply bind_ok in H as [l6 [E6 H]]. apply ok_inj in H as <-.
  assert (Q1 : flat_map component_number l1 = []).
  { unfold write_tsurfs in E1. apply bind_ok in E1 as [fs [_ E1]]. apply bind_ok in E1 as [hs [_ E1]]. apply ok_inj in E1 as <-.
    generalize (map (fun c => component_name uuid_text (c_name c) (c_id c)) (m_bounds m) ++ fs ++ hs ++
      map (fun s => component_name uuid_text (s_name s) (s_id s)) (unclassified m)). intros l.
    induction l as [|x l IH]; [reflexivity|]. cbn [map flat_map]. rewrite IH. unfold tsurf_line.
    change (lit "TSURF ") with (lit "TSURF" ++ [SP]). rewrite <- app_assoc. cbn [app]. rewrite cn_kw; [reflexivity|tok|].
    intros [X|X]; discriminate. }
  assert (D0 : declares (F:=F) m [] (mkComps [] 1) []).
  { constructor; try reflexivity; [constructor|]. intros [|k] i; discriminate. }
  destruct (declare_sections HF HK uuid_text m (sections uuid_text m) _ _ _ _ _ D0 E2) as [declared [D W]].
  exists declared. destruct (universe_number usides st2 declared l3 st3 (d_comps _ _ _ _ D) (d_nodup _ _ _ _ D)) as (C3 & N3 & F3 & es & R3 & L3).
  { rewrite (d_next _ _ _ _ D). pose proof (lenz_nonneg declared). lia. } { assumption. }
  rewrite (d_next _ _ _ _ D) in *. rewrite (d_comps _ _ _ _ D) in C3.
  pose proof (lenz_nonneg declared) as Hl.
  destruct (regions_numbers rsides declared (map s_id (m_surfaces m)) (d_nodup _ _ _ _ D) (m_blocks m) [] st3 l4 st4) as (F4 & _ & B4); try assumption.
  { intros b Hbb Hi. pose proof N as N'. apply in_split in Hi as [p [q Hpq]]. rewrite Hpq in N'.
    rewrite <- app_assoc in N'. cbn [app] in N'. apply NoDup_remove_2 in N'. apply N'. apply in_or_app. right. apply in_or_app. right.
    now apply in_map. }
  { intros x _. now rewrite C3. } { lia. }
  assert (P3 : forall x k, find_id (comps st3) x = Some k -> 0 <= k).
  { rewrite C3. intros x k Hx. apply numbered_find in Hx as [j [_ ->]]; [lia|apply D]. }
  pose proof (regions_positive rsides (m_blocks m) [] st3 l4 st4 ltac:(lia) P3 E4) as P4.
  assert (Q5 : flat_map component_number (List.concat l5) = []).
  { eapply (units_quiet (lit "LAYER")); [tok| |exact P4|exact E5]. intros [X|X]; discriminate. }
  assert (Q6 : flat_map component_number (List.concat l6) = []).
  { eapply (units_quiet (lit "FAULT_BLOCK")); [tok| |exact P4|exact E6]. intros [X|X]; discriminate. }
  constructor.
  - apply D.
  - intros i. rewrite W. cbn [In]. unfold sections. rewrite !flat_map_app, !flat_map_map. cbn [snd].
    rewrite !in_app_iff. unfold grouped. rewrite !in_app_iff.
    assert (U : In i (flat_map (fun s : MSurf F => [s_id s]) (unclassified m)) <->
       In i (map s_id (m_surfaces m)) /\ ~ In i (grouped m) /\ ~ In i (m_others m)).
    { rewrite in_flat_map. unfold unclassified. split.
      - intros [s [Hs [<-|[]]]]. apply filter_In in Hs as [Hs Hx]. apply negb_true_iff, not_true_iff_false in Hx.
        rewrite existsb_in in Hx. split; [now apply in_map|]. unfold grouped. rewrite !in_app_iff in *. tauto.
      - intros [Hi [Hg Ho]]. apply in_map_iff in Hi as [s [<- Hs]]. exists s. split; [|now left].
        apply filter_In. split; [assumption|]. apply negb_true_iff, not_true_iff_false. rewrite existsb_in.
        unfold grouped in Hg. rewrite !in_app_iff in *. tauto. }
    rewrite U. unfold grouped. rewrite !in_app_iff.
    change (fun x : Coll unit => c_items x) with (@c_items unit).
    change (fun x : Coll fault_type => c_items x) with (@c_items fault_type).
    change (fun x : Coll contact_type => c_items x) with (@c_items contact_type). tauto.
  - rewrite !flat_map_app, Q1, (d_numbers _ _ _ _ D), F3, F4, Q5, Q6, N3. cbn [flat_map app].
    assert (Qe : component_number (lit "END") = []) by reflexivity. rewrite Qe. cbn [app]. rewrite app_nil_r.
    rewrite !rangez_app, !map_app, <- app_assoc. f_equal. cbn [rangez map app].
    change (Z.of_nat (List.length declared)) with (lenz declared).
    replace (1 + Z.of_nat (List.length declared + 1)) with (1 + lenz declared + 1) by (unfold lenz; lia). reflexivity.
  - intros k i Hk. destruct (d_faces _ _ _ _ D k i Hk) as (s & ks & kd & nm & H1 & H2 & H3).
    exists s, ks, kd, nm. split; [assumption|]. split; [assumption|]. apply appears_app_r, appears_app_l, H3.
  - exists es. split; [assumption|]. apply appears_app_r, appears_app_r, appears_app_l. rewrite L3.
    replace (lenz declared + 1) with (1 + lenz declared) by lia. apply appears_self.
  - intros j b Hj. destruct (B4 j b Hj) as [es' [R4 A4]]. exists es'. split; [assumption|].
    apply appears_app_r, appears_app_r, appears_app_r, appears_app_l.
    replace (lenz declared + 2 + Z.of_nat j) with (next_id st3 + Z.of_nat j) by lia. exact A4.
Qed.
End Regions2.
