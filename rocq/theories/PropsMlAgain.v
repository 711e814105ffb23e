(** * Saving again a structural model loaded from a .ml file (C146). *)
From Coq Require Import ZArith List Lia Bool Ascii String Permutation.
From Verif Require Import Base Text TextFacts GocadModel MeshModel TsModel Spec GocadFacts TsFacts SignsModel PropsSigns PropsLsoAgain.
From Verif Require Import LsoFacts LsoWhole PropsLso MlModel MlFacts MlFile MlRound PropsMl PropsMlAccept PropsMlBrep PropsMlSound ExNum ExCheck.
Import ListNotations.
Local Open Scope string_scope.
Local Open Scope list_scope.
Local Open Scope Z_scope.

(** ** Specification *)
(** The list designates, each once, the components whose numbers are [ks]; the component of number [k] has the [k]-th identifier. *)
Definition holds (ids ks l : list Z) : Prop := NoDup l /\ forall i, In i l <-> exists k, In k ks /\ nthz ids k = Some i.
Definition coll_as {T} (kind : T -> kind_in) (ids : list Z) (c : CollIn) (c' : Coll T) : Prop :=
  ci_kind c = kind (c_type c') /\ c_name c' = Some (ci_name c) /\ holds ids (ci_surfaces c) (c_items c').
Definition unit_as (bids : list Z) (u : bytes * list Z) (c : Coll unit) : Prop := c_name c = Some (fst u) /\ holds bids (snd u) (c_items c).
Definition is_fault (c : CollIn) : bool := match ci_kind c with KFault _ => true | _ => false end.
Definition is_horizon (c : CollIn) : bool := match ci_kind c with KHorizon _ => true | _ => false end.
(** [w] is the loaded model [out] as the exporter reads it. [ids] and [bids] are the identifiers that the surfaces and the blocks received when they were created; the
    orders of the components and of the items of the collections are any. ml_input.cpp puts surfaces in faults, model boundaries and horizons only (725-799). The border
    walk of a surface goes through its vertices. The loaded model has a model boundary (without one the exporter works on a copy to which OpenGeode adds some). *)
Record ml_seen {F} (out : MlIn F) (ids bids : list Z) (w : SModel F) : Prop := {
  ms_title : m_title w = o_title out;
  ms_ids : NoDup (ids ++ bids);
  ms_surfs : exists ss, Permutation (m_surfaces w) ss /\ map s_id ss = ids /\ lenz ss = lenz (o_surfaces out) /\
     forall k s mesh, nthz ss k = Some s -> In (k, mesh) (o_meshes out) -> s_points s = m_points mesh /\ s_tris s = m_cells mesh;
  ms_loops : forall s loop e, In s (m_surfaces w) -> In loop (s_loops s) -> In e loop -> 0 <= fst e < lenz (s_points s) /\ 0 <= snd e < lenz (s_points s);
  ms_bounds : exists cs, Permutation (m_bounds w) cs /\ Forall2 (coll_as (fun _ => KBoundary) ids) (filter is_boundary (o_colls out)) cs;
  ms_faults : exists cs, Permutation (m_faults w) cs /\ Forall2 (coll_as KFault ids) (filter is_fault (o_colls out)) cs;
  ms_horizons : exists cs, Permutation (m_horizons w) cs /\ Forall2 (coll_as KHorizon ids) (filter is_horizon (o_colls out)) cs;
  ms_others : m_others w = [];
  ms_blocks : exists bs, Permutation (m_blocks w) bs /\ map b_id bs = bids /\
     Forall2 (fun r b => b_name b = Some (bi_name r) /\ holds ids (bi_boundaries r) (b_boundaries b) /\ holds ids (bi_internals r) (b_internals b)) (o_blocks out) bs;
  ms_units : exists us, Permutation (m_units w) us /\ Forall2 (unit_as bids) (o_units out) us;
  ms_fblocks : exists us, Permutation (m_fblocks w) us /\ Forall2 (unit_as bids) (o_fblocks out) us
}.
(** [out] is what was saved, up to the order of the components: [nb] and [bn] give the numbers of the loaded surfaces and blocks. *)
Definition same_set (a b : list Z) : Prop := forall x, In x a <-> In x b.
Definition kept_block (nb : Z -> Z) (b : MBlock) (b' : BlkIn) (name : bytes) : Prop :=
  bi_name b' = name /\ same_set (bi_boundaries b') (map nb (b_boundaries b)) /\ same_set (bi_internals b') (map nb (b_internals b)).
Record kept {F} (uuid_text : Z -> bytes) (m : SModel F) (out : MlIn F) (nb bn : Z -> Z) : Prop := {
  k_number : lenz (o_surfaces out) = lenz (m_surfaces m) /\ lenz (o_blocks out) = lenz (m_blocks m);
  k_distinct : forall a b, In a (map s_id (m_surfaces m)) -> In b (map s_id (m_surfaces m)) -> nb a = nb b -> a = b;
  k_mesh : forall s, In s (m_surfaces m) -> exists mesh ps, In (nb (s_id s), mesh) (o_meshes out) /\
     m_cells mesh = s_tris s /\ Forall2 (reread_point F) (s_points s) ps /\ Forall2 (reread_point F) ps (m_points mesh);
  k_colls : exists cs, Permutation (o_colls out) cs /\
     Forall2 (fun g c => ci_kind c = fst (fst g) /\ ci_name c = gname g /\ same_set (ci_surfaces c) (map nb (snd g))) (groups uuid_text m) cs;
  k_blocks : forall b, In b (m_blocks m) -> exists b', nthz (o_blocks out) (bn (b_id b)) = Some b' /\
     kept_block nb b b' (underscored (label uuid_text (b_name b) (b_id b)));
  k_units : exists us, Permutation (o_units out) us /\ Forall2 (fun u u' => c_name u = Some (fst u') /\ same_set (snd u') (map bn (c_items u))) (m_units m) us;
  k_fblocks : exists us, Permutation (o_fblocks out) us /\ Forall2 (fun u u' => c_name u = Some (fst u') /\ same_set (snd u') (map bn (c_items u))) (m_fblocks m) us
}.

(** ** Facts *)
Lemma perm_in {A} (l l' : list A) x : Permutation l l' -> In x l <-> In x l'.
Proof. intros P. split; apply Permutation_in; [exact P|now apply Permutation_sym]. Qed.
Lemma flat_map_in_iff {A B} (f : A -> list B) l l' y : Permutation l l' -> In y (flat_map f l) <-> In y (flat_map f l').
Proof. intros P. rewrite !in_flat_map. split; intros (x & H1 & H2); exists x; split; auto; now apply (perm_in _ _ x P). Qed.
Lemma nthz_ex {A} (l : list A) k : 0 <= k < lenz l -> exists x, nthz l k = Some x.
Proof. intros H. apply nthz_in_range. unfold lenz in H. exact H. Qed.

(** ** Any loaded model *)
Section Any.
Context {F : Num} (text : bytes) (out : MlIn F) (L : read_ml F text = Ok out) (ids bids : list Z) (w : SModel F) (SEEN : ml_seen out ids bids w).

Lemma known_contact f t : kind_of f = Ok (KHorizon t) -> t <> CErosion /\ t <> CBaselap.
Proof.
  unfold kind_of, horizon_of. intros H. destruct (contains f "fault"); [destruct (fault_of f); discriminate H|].
  destruct (beq f "boundary" || beq f "lease"); [discriminate H|].
  repeat match type of H with context [if ?b then _ else _] => destruct b; [cbn in H; injection H as <-; split; discriminate|] end. discriminate H.
Qed.
Lemma loaded_contacts c t : In c (o_colls out) -> ci_kind c = KHorizon t -> t <> CErosion /\ t <> CBaselap.
Proof.
  destruct (loaded_state F text out L) as (st & s3 & _ & _ & _ & _ & _ & E & _). unfold create_tsurfs in E. apply bind_ok in E as (cs & E1 & E). cbv zeta in E.
  intros Hc K. assert (In c cs) as H.
  { destruct (filter _ _) in E; injection E as E; rewrite <- E in Hc; [exact Hc|]. apply in_app_or in Hc as [Hc|[<-|[]]]; [exact Hc|discriminate K]. }
  revert K. refine (mapM_all _ (fun c => ci_kind c = KHorizon t -> t <> CErosion /\ t <> CBaselap) _ _ cs E1 c H). intros a b Eb K. apply bind_ok in Eb as (k & Ek & Eb). injection Eb as <-.
  cbn [ci_kind] in K. subst k. exact (known_contact _ _ Ek).
Qed.
Lemma seen_surfaces i : In i (map s_id (m_surfaces w)) <-> In i ids.
Proof. destruct (ms_surfs _ _ _ _ SEEN) as (ss & P & <- & _). apply perm_in. now apply Permutation_map. Qed.
Lemma seen_blocks i : In i (map b_id (m_blocks w)) <-> In i bids.
Proof. destruct (ms_blocks _ _ _ _ SEEN) as (ss & P & <- & _). apply perm_in. now apply Permutation_map. Qed.
Lemma holds_in js ks l i : holds js ks l -> In i l -> In i js.
Proof. intros [_ H] Hi. apply H in Hi as (k & _ & Hk). now apply nthz_in in Hk. Qed.
Lemma coll_in {T} (kind : T -> kind_in) cs ws (cs' : list (Coll T)) i :
  Permutation ws cs' -> Forall2 (coll_as kind ids) cs cs' -> In i (flat_map c_items ws) -> In i ids.
Proof.
  intros P H Hi. apply (flat_map_in_iff _ _ _ _ P), in_flat_map in Hi as (c & Hc & Hi). destruct (Forall2_in_r _ _ _ _ H Hc) as (c0 & _ & _ & _ & K).
  exact (holds_in _ _ _ _ K Hi).
Qed.
Lemma unit_in cs ws cs' (u : Coll unit) b : Permutation ws cs' -> Forall2 (unit_as bids) cs cs' -> In u ws -> In b (c_items u) -> In b bids.
Proof. intros P H Hu Hb. apply (perm_in _ _ _ P) in Hu. destruct (Forall2_in_r _ _ _ _ H Hu) as (c0 & _ & _ & K). exact (holds_in _ _ _ _ K Hb). Qed.
Lemma seen_mesh s : In s (m_surfaces w) -> exists k mesh, nthz ids k = Some (s_id s) /\ In (k, mesh) (o_meshes out) /\ s_points s = m_points mesh /\ s_tris s = m_cells mesh.
Proof.
  intros Hs. destruct (ms_surfs _ _ _ _ SEEN) as (ss & P & E & HL & K). apply (perm_in _ _ _ P) in Hs. destruct (in_nthz _ _ Hs) as [k Hk].
  destruct (C116_surfaces F text out L) as ([_ M] & _). pose proof (nthz_range _ _ _ Hk) as R. assert (Hi : In k (map fst (o_meshes out))) by (apply M; unfold lenz in *; lia).
  apply in_map_iff in Hi as ([k' mesh] & E1 & Hi). cbn [fst] in E1. subst k'. exists k, mesh. split; [rewrite <- E, nthz_map, Hk; reflexivity|]. split; [exact Hi|]. now apply (K k).
Qed.
Lemma seen_back k mesh : In (k, mesh) (o_meshes out) -> exists s, In s (m_surfaces w) /\ nthz ids k = Some (s_id s) /\ s_points s = m_points mesh /\ s_tris s = m_cells mesh.
Proof.
  intros Hi. destruct (ms_surfs _ _ _ _ SEEN) as (ss & P & E & HL & K). destruct (C116_surfaces F text out L) as ([_ M] & _).
  assert (R : 0 <= k < lenz (o_surfaces out)) by (apply M, in_map_iff; exists (k, mesh); auto). rewrite <- HL in R. destruct (nthz_ex _ _ R) as [s Hk]. exists s.
  split; [apply (perm_in _ _ _ P); now apply nthz_in in Hk|]. split; [rewrite <- E, nthz_map, Hk; reflexivity|]. now apply (K k).
Qed.
Lemma seen_sound : sound_structure w.
Proof.
  destruct (ms_bounds _ _ _ _ SEEN) as (cb & Pb & Hb). destruct (ms_faults _ _ _ _ SEEN) as (cf & Pf & Hf). destruct (ms_horizons _ _ _ _ SEEN) as (ch & Ph & Hh).
  destruct (ms_blocks _ _ _ _ SEEN) as (bs & Pk & Ek & Hk). destruct (ms_units _ _ _ _ SEEN) as (us & Pu & Hu). destruct (ms_fblocks _ _ _ _ SEEN) as (fs & Pg & Hg).
  destruct (ms_surfs _ _ _ _ SEEN) as (ss & Ps & Es & _). constructor.
  - apply (Permutation_NoDup (l := ids ++ bids)); [|exact (ms_ids _ _ _ _ SEEN)]. rewrite <- Es, <- Ek. apply Permutation_app; apply Permutation_map, Permutation_sym; assumption.
  - apply Forall_forall. intros s Hs. destruct (seen_mesh s Hs) as (k & mesh & _ & Hi & -> & ->). destruct (C116_surfaces F text out L) as (_ & C & _).
    apply Forall_forall. intros [[a b] c] Ht. exact (C k mesh Hi a b c Ht).
  - intros i Hi. apply seen_surfaces. apply in_app_or in Hi as [Hi|Hi]; [exact (coll_in _ _ _ _ _ Pb Hb Hi)|]. apply in_app_or in Hi as [Hi|Hi];
      [exact (coll_in _ _ _ _ _ Pf Hf Hi)|exact (coll_in _ _ _ _ _ Ph Hh Hi)].
  - intros b i Hbl Hi. apply seen_surfaces. apply (perm_in _ _ _ Pk) in Hbl. destruct (Forall2_in_r _ _ _ _ Hk Hbl) as (r & _ & _ & K1 & K2).
    apply in_app_or in Hi as [Hi|Hi]; [exact (holds_in _ _ _ _ K1 Hi)|exact (holds_in _ _ _ _ K2 Hi)].
  - intros u b Hin Hi. apply seen_blocks. apply in_app_or in Hin as [Hin|Hin]; [exact (unit_in _ _ _ _ _ Pu Hu Hin Hi)|exact (unit_in _ _ _ _ _ Pg Hg Hin Hi)].
Qed.
Lemma seen_named : all_named w.
Proof.
  destruct (ms_faults _ _ _ _ SEEN) as (cf & Pf & Hf). destruct (ms_horizons _ _ _ _ SEEN) as (ch & Ph & Hh).
  destruct (ms_units _ _ _ _ SEEN) as (us & Pu & Hu). destruct (ms_fblocks _ _ _ _ SEEN) as (fs & Pg & Hg). split; [|split].
  - intros c Hc. apply (perm_in _ _ _ Pf) in Hc. destruct (Forall2_in_r _ _ _ _ Hf Hc) as (x & _ & _ & E & _). rewrite E; discriminate.
  - intros c Hc. apply (perm_in _ _ _ Ph) in Hc. destruct (Forall2_in_r _ _ _ _ Hh Hc) as (x & _ & _ & E & _). rewrite E; discriminate.
  - intros c Hc. apply in_app_or in Hc as [Hc|Hc]; [apply (perm_in _ _ _ Pu) in Hc; destruct (Forall2_in_r _ _ _ _ Hu Hc) as (x & _ & E & _); rewrite E; discriminate|].
    apply (perm_in _ _ _ Pg) in Hc; destruct (Forall2_in_r _ _ _ _ Hg Hc) as (x & _ & E & _); rewrite E; discriminate.
Qed.
Lemma seen_contacts : known_contacts w.
Proof.
  destruct (ms_horizons _ _ _ _ SEEN) as (ch & Ph & Hh). intros c Hc. apply (perm_in _ _ _ Ph) in Hc. destruct (Forall2_in_r _ _ _ _ Hh Hc) as (x & Hx & E & _).
  apply filter_In in Hx as [Hx _]. exact (loaded_contacts x _ Hx E).
Qed.
End Any.

(** Whatever the file, the model loaded from it is exported exactly when its sides are found and every surface has a triangle: what the exporter needs besides (names,
    contact types it can write, surfaces of the blocks among those it writes) is always there. *)
Theorem C146_loaded_saved : forall (F : Num) uuid_text text (out : MlIn F) ids bids w g, read_ml F text = Ok out -> ml_seen out ids bids w ->
  (exists text', export_ml uuid_text w g = Ok text') <-> sides_found w g /\ forall k mesh, In (k, mesh) (o_meshes out) -> m_cells mesh <> [].
Proof.
  intros F uuid_text text out ids bids w g R SEEN. rewrite (C142_structural_model uuid_text w g (seen_sound text out R ids bids w SEEN)).
  assert (SH : forall i, shown w i) by (intros i; right; rewrite (ms_others _ _ _ _ SEEN); intros []). split.
  - intros (H1 & _ & _ & H2 & _). split; [exact H1|]. intros k mesh Hi. destruct (seen_back text out R ids bids w SEEN k mesh Hi) as (s & Hs & _ & _ & <-). apply H2; auto.
  - intros [H1 H2]. split; [exact H1|]. split; [exact (seen_named out ids bids w SEEN)|]. split; [exact (seen_contacts text out R ids bids w SEEN)|]. split; [|auto].
    intros s Hs _. destruct (seen_mesh text out R ids bids w SEEN s Hs) as (k & mesh & _ & Hi & _ & ->). exact (H2 _ _ Hi).
Qed.
Print Assumptions C146_loaded_saved.

(** ** A saved model, loaded and saved again *)
Lemma underscored_twice l : underscored (underscored l) = underscored l.
Proof.
  unfold underscored. rewrite map_map. apply map_ext. intros c. destruct (Ascii.eqb c " ") eqn:E; [reflexivity|]. now rewrite E.
Qed.
Lemma choose_list {A B} (P : A -> B -> Prop) l : (forall x, In x l -> exists y, P x y) -> exists l', Forall2 P l l'.
Proof.
  induction l as [|x l IH]; intros H; [exists []; constructor|]. destruct (H x (or_introl eq_refl)) as [y Hy].
  destruct IH as [l' IH]; [intros z Hz; apply H; now right|]. exists (y :: l'). now constructor.
Qed.
Lemma Forall2_chain {A B C} (P : A -> B -> Prop) (Q : B -> C -> Prop) a b : Forall2 P a b -> forall c, Forall2 Q b c -> Forall2 (fun x z => exists y, P x y /\ Q y z) a c.
Proof. induction 1; intros c H2; inversion_clear H2; constructor; eauto. Qed.
Lemma Forall2_kept {A B} (P : A -> B -> Prop) a b : Forall2 P a b -> Forall2 (fun x y => In x a /\ P x y) a b.
Proof.
  induction 1 as [|x y a b H _ IH]; constructor; [split; [now left|exact H]|]. revert IH. apply Forall2_impl'. intros u v [H1 H2]. split; [now right|exact H2].
Qed.
Lemma Forall2_map_l {A B C} (P : B -> C -> Prop) (h : A -> B) a c : Forall2 P (map h a) c -> Forall2 (fun x z => P (h x) z) a c.
Proof. revert c. induction a as [|x a IH]; intros c H; inversion_clear H; constructor; auto. Qed.
Lemma Forall2_map_r {A B C} (P : A -> C -> Prop) (h : B -> C) a b : Forall2 (fun x y => P x (h y)) a b -> Forall2 P a (map h b).
Proof. induction 1; constructor; auto. Qed.
Lemma filter_all {A} (p : A -> bool) l : (forall x, In x l -> p x = true) -> filter p l = l.
Proof. induction l as [|x l IH]; intros H; [reflexivity|]. cbn [filter]. rewrite (H x (or_introl eq_refl)), IH; [reflexivity|]. intros y Hy. apply H. now right. Qed.
Lemma filter_none {A} (p : A -> bool) l : (forall x, In x l -> p x = false) -> filter p l = [].
Proof. induction l as [|x l IH]; intros H; [reflexivity|]. cbn [filter]. rewrite (H x (or_introl eq_refl)), IH; [reflexivity|]. intros y Hy. apply H. now right. Qed.
Fixpoint index_of (b : Z) (l : list Z) : Z := match l with [] => 0 | x :: r => if x =? b then 0 else 1 + index_of b r end.
Lemma index_of_in b l : In b l -> nthz l (index_of b l) = Some b.
Proof.
  induction l as [|x l IH]; [intros []|]. intros H. cbn [index_of]. destruct (Z.eqb_spec x b) as [->|N]; [reflexivity|].
  destruct H as [H|H]; [contradiction|]. specialize (IH H). pose proof (nthz_range _ _ _ IH). rewrite nthz_cons. destruct (Z.eqb_spec (1 + index_of b l) 0); [lia|].
  now replace (1 + index_of b l - 1) with (index_of b l) by lia.
Qed.
Lemma index_of_nthz b l k : NoDup l -> nthz l k = Some b -> k = index_of b l.
Proof. intros ND H. apply (nthz_inj l _ _ b ND H). apply index_of_in. now apply nthz_in in H. Qed.
Lemma nodup_sub {A} (a b : list A) : NoDup (a ++ b) -> NoDup b.
Proof. induction a as [|x a IH]; [auto|]. intros H. inversion_clear H. auto. Qed.

Section Again.
Context {F : Num} (uuid_text : Z -> bytes) (m : SModel F) (us : list (Z * bool)) (rs : PairedSigns) (E : exportable uuid_text m us rs) (FREE : free m = [])
  (text : bytes) (out : MlIn F) (R : read_ml F text = Ok out) (nb : Z -> Z) (SM : same_model uuid_text m out nb)
  (ids bids : list Z) (w : SModel F) (SEEN : ml_seen out ids bids w).
Let mids := map s_id (m_surfaces m).
Definition to_w (a : Z) : Z := match nthz ids (nb a) with Some i => i | None => 0 end.

Lemma ids_length : lenz ids = lenz (m_surfaces m).
Proof. destruct (ms_surfs _ _ _ _ SEEN) as (ss & _ & <- & H & _). destruct (l_number _ _ _ _ SM) as [H2 _]. unfold lenz in *. rewrite map_length. lia. Qed.
Lemma ids_nodup : NoDup ids.
Proof. exact (nodup_left _ _ (ms_ids _ _ _ _ SEEN)). Qed.
Lemma mids_nodup : NoDup mids.
Proof. exact (nodup_left _ _ (e_ids _ _ _ _ E)). Qed.
Lemma to_w_at a : In a mids -> nthz ids (nb a) = Some (to_w a).
Proof.
  intros H. destruct (l_number _ _ _ _ SM) as [_ B]. destruct (nthz_ex ids (nb a)) as [i Hi]; [rewrite ids_length; now apply B|]. unfold to_w. rewrite Hi. reflexivity.
Qed.
Lemma to_w_inj a b : In a mids -> In b mids -> to_w a = to_w b -> a = b.
Proof.
  intros Ha Hb H. apply (l_distinct _ _ _ _ SM a b Ha Hb). apply (nthz_inj ids _ _ (to_w a) ids_nodup); [now apply to_w_at|]. rewrite H. now apply to_w_at.
Qed.
Lemma map_nodup (f : Z -> Z) l : (forall a b, In a l -> In b l -> f a = f b -> a = b) -> NoDup l -> NoDup (map f l).
Proof.
  induction l as [|x l IH]; intros H ND; [constructor|]. inversion_clear ND as [|? ? N1 N2]. cbn [map]. constructor.
  - intros Hx. apply in_map_iff in Hx as (y & Ey & Hy). apply N1. rewrite <- (H y x (or_intror Hy) (or_introl eq_refl) Ey). exact Hy.
  - apply IH; [|exact N2]. intros a b Ha Hb. apply H; now right.
Qed.
Lemma holds_set items l : incl items mids -> holds ids (map nb items) l -> same_set l (map to_w items).
Proof.
  intros I [_ H] i. rewrite H, in_map_iff. split.
  - intros (k & Hk & Hi). apply in_map_iff in Hk as (a & <- & Ha). exists a. split; [|exact Ha]. rewrite (to_w_at a (I a Ha)) in Hi. congruence.
  - intros (a & <- & Ha). exists (nb a). split; [now apply in_map|]. exact (to_w_at a (I a Ha)).
Qed.
Lemma holds_perm items l : incl items mids -> NoDup items -> holds ids (map nb items) l -> Permutation l (map to_w items).
Proof.
  intros I ND H. apply NoDup_Permutation; [exact (proj1 H)| |exact (holds_set _ _ I H)]. apply map_nodup; [|exact ND]. intros a b Ha Hb. apply to_w_inj; auto.
Qed.
Lemma onto i : In i ids -> exists a, In a mids /\ to_w a = i.
Proof.
  intros Hi. assert (H : incl ids (map to_w mids)).
  { apply NoDup_length_incl.
    - apply map_nodup; [|exact mids_nodup]. exact to_w_inj.
    - pose proof ids_length as L. unfold lenz in L. unfold mids. rewrite !map_length. lia.
    - intros x Hx. apply in_map_iff in Hx as (a & <- & Ha). exact (nthz_in _ _ _ (to_w_at a Ha)). }
  apply H, in_map_iff in Hi as (a & Ea & Ha). eauto.
Qed.

(** *** Surfaces *)
Definition surf_kept (s s' : MSurf F) : Prop := s_id s' = to_w (s_id s) /\ s_tris s' = s_tris s /\ Forall2 (reread_point F) (s_points s) (s_points s').
Lemma surfaces_kept : exists l, Permutation (m_surfaces w) l /\ Forall2 surf_kept (m_surfaces m) l.
Proof.
  destruct (choose_list (fun s s' => In s' (m_surfaces w) /\ surf_kept s s') (m_surfaces m)) as [l Hl].
  { intros s Hs. destruct (l_mesh _ _ _ _ SM s Hs) as (mesh & Hm & C & P). destruct (seen_back text out R ids bids w SEEN _ _ Hm) as (s' & Hs' & Hk & E1 & E2).
    exists s'. split; [exact Hs'|]. unfold surf_kept. rewrite E1, E2. split; [|auto]. rewrite (to_w_at (s_id s)) in Hk; [congruence|now apply in_map]. }
  exists l. split; [|revert Hl; apply Forall2_impl'; tauto]. apply Permutation_sym.
  assert (EI : map s_id l = map to_w mids).
  { unfold mids. clear - Hl. induction Hl as [|s s' a b (_ & H & _) _ IH]; [reflexivity|]. cbn [map]. congruence. }
  apply NoDup_Permutation_bis.
  - apply (NoDup_map_inv s_id). rewrite EI. apply map_nodup; [exact to_w_inj|exact mids_nodup].
  - pose proof (F2_len Hl). destruct (ms_surfs _ _ _ _ SEEN) as (ss & P & Es & _). pose proof ids_length as L. apply Permutation_length in P. rewrite <- Es in L. unfold lenz in L. rewrite map_length in L. lia.
  - intros s' Hs'. destruct (Forall2_in_r _ _ _ _ Hl Hs') as (s & _ & H & _). exact H.
Qed.

(** *** Collections *)
Definition coll_kept {T} (ty : T -> T) (nm : Coll T -> bytes) (c c' : Coll T) : Prop :=
  c_type c' = ty (c_type c) /\ c_name c' = Some (nm c) /\ Permutation (c_items c') (map to_w (c_items c)).
Lemma all_colls : o_colls out = map (fun g => mkCollIn (fst (fst g)) (gname g) (map nb (snd g))) (groups uuid_text m).
Proof. destruct (l_colls _ _ _ _ SM) as (more & -> & H). rewrite (H FREE). apply app_nil_r. Qed.
Lemma of_kind {T} (p : CollIn -> bool) (kind : T -> kind_in) (ty : T -> T) (nm : Coll T -> bytes) (mine : list (Coll T)) ws :
  filter p (o_colls out) = map (fun c => mkCollIn (kind (ty (c_type c))) (nm c) (map nb (c_items c))) mine ->
  (forall a b, kind a = kind b -> a = b) -> (forall c, In c mine -> incl (c_items c) mids /\ NoDup (c_items c)) ->
  (exists cs, Permutation ws cs /\ Forall2 (coll_as kind ids) (filter p (o_colls out)) cs) ->
  exists cs, Permutation ws cs /\ Forall2 (coll_kept ty nm) mine cs.
Proof.
  intros EF KI HI (cs & P & H). exists cs. split; [exact P|]. rewrite EF in H. apply Forall2_map_l, Forall2_kept in H. revert H. apply Forall2_impl'.
  intros c c' (Hc & K1 & K2 & K3). cbn [ci_kind ci_name ci_surfaces] in *. destruct (HI c Hc) as [I ND]. split; [symmetry; now apply KI|]. split; [exact K2|]. now apply holds_perm.
Qed.
Lemma nodup_item {T} (a : list Z) (l : list (Coll T)) b c : NoDup (a ++ flat_map c_items l ++ b) -> In c l -> NoDup (c_items c).
Proof.
  intros ND Hc. apply in_split in Hc as (l1 & l2 & ->). rewrite flat_map_app in ND. cbn [flat_map] in ND. apply nodup_sub in ND. rewrite <- !app_assoc in ND.
  apply nodup_sub in ND. now apply nodup_left in ND.
Qed.
Lemma colls_kept :
  (exists cs, Permutation (m_bounds w) cs /\ Forall2 (coll_kept (fun t => t) (fun c => underscored (label uuid_text (c_name c) (c_id c)))) (m_bounds m) cs) /\
  (exists cs, Permutation (m_faults w) cs /\ Forall2 (coll_kept kept_fault (fun c => label uuid_text (c_name c) (c_id c))) (m_faults m) cs) /\
  (exists cs, Permutation (m_horizons w) cs /\ Forall2 (coll_kept (fun t => t) (fun c => label uuid_text (c_name c) (c_id c))) (m_horizons m) cs).
Proof.
  pose proof (e_items _ _ _ _ E) as EI. pose proof (e_once _ _ _ _ E) as EO. unfold grouped in EI, EO.
  split; [|split].
  - apply (of_kind is_boundary (fun _ : unit => KBoundary)).
    + rewrite all_colls. unfold groups. rewrite FREE. cbn [map]. rewrite app_nil_r, !map_app, !map_map, !filter_app. cbn [fst snd gname].
      rewrite filter_all by (intros x Hx; apply in_map_iff in Hx as (c & <- & _); reflexivity).
      rewrite !filter_none by (intros x Hx; apply in_map_iff in Hx as (c & <- & _); reflexivity). cbn [app]. apply app_nil_r.
    + intros [] []. reflexivity.
    + intros c Hc. split; [intros i Hi; apply EI, in_or_app; left; apply in_flat_map; eauto|]. exact (nodup_item [] _ _ c EO Hc).
    + exact (ms_bounds _ _ _ _ SEEN).
  - apply (of_kind is_fault KFault).
    + rewrite all_colls. unfold groups. rewrite FREE. cbn [map]. rewrite app_nil_r, !map_app, !map_map, !filter_app. cbn [fst snd gname].
      rewrite (filter_none _ (map _ (m_bounds m))) by (intros x Hx; apply in_map_iff in Hx as (c & <- & _); reflexivity).
      rewrite (filter_none _ (map _ (m_horizons m))) by (intros x Hx; apply in_map_iff in Hx as (c & <- & _); reflexivity).
      rewrite filter_all by (intros x Hx; apply in_map_iff in Hx as (c & <- & _); reflexivity). cbn [app]. apply app_nil_r.
    + congruence.
    + intros c Hc. split; [intros i Hi; apply EI, in_or_app; right; apply in_or_app; left; apply in_flat_map; eauto|]. exact (nodup_item _ _ _ c EO Hc).
    + exact (ms_faults _ _ _ _ SEEN).
  - apply (of_kind is_horizon KHorizon).
    + rewrite all_colls. unfold groups. rewrite FREE. cbn [map]. rewrite app_nil_r, !map_app, !map_map, !filter_app. cbn [fst snd gname].
      rewrite (filter_none _ (map _ (m_bounds m))) by (intros x Hx; apply in_map_iff in Hx as (c & <- & _); reflexivity).
      rewrite (filter_none _ (map _ (m_faults m))) by (intros x Hx; apply in_map_iff in Hx as (c & <- & _); reflexivity).
      rewrite filter_all by (intros x Hx; apply in_map_iff in Hx as (c & <- & _); reflexivity). reflexivity.
    + congruence.
    + intros c Hc. split; [intros i Hi; apply EI, in_or_app; right; apply in_or_app; right; apply in_flat_map; eauto|].
      rewrite app_assoc in EO. rewrite <- (app_nil_r (flat_map c_items (m_horizons m))) in EO. exact (nodup_item _ _ _ c EO Hc).
    + exact (ms_horizons _ _ _ _ SEEN).
Qed.
Lemma kept_items {T} ty nm (mine cs ws : list (Coll T)) : Permutation ws cs -> Forall2 (coll_kept ty nm) mine cs ->
  Permutation (flat_map c_items ws) (map to_w (flat_map c_items mine)).
Proof.
  intros P H. rewrite (Permutation_flat_map c_items P). clear P. induction H as [|c c' mine cs (_ & _ & H) _ IH]; [reflexivity|]. cbn [flat_map]. rewrite map_app. now apply Permutation_app.
Qed.
Lemma grouped_kept : Permutation (grouped w) (map to_w (grouped m)).
Proof.
  destruct colls_kept as ((c1 & P1 & H1) & (c2 & P2 & H2) & (c3 & P3 & H3)). unfold grouped. rewrite !map_app.
  apply Permutation_app; [exact (kept_items _ _ _ _ _ P1 H1)|]. apply Permutation_app; [exact (kept_items _ _ _ _ _ P2 H2)|exact (kept_items _ _ _ _ _ P3 H3)].
Qed.
Lemma free_kept : free w = [].
Proof.
  unfold free. apply filter_none. intros s Hs. apply negb_false_iff, existsb_eq_in, (perm_in _ _ _ grouped_kept).
  destruct (onto (s_id s)) as (a & Ha & <-); [apply (seen_surfaces out ids bids w SEEN); now apply in_map|]. apply in_map.
  destruct (in_dec Z.eq_dec a (grouped m)) as [H|H]; [exact H|exfalso]. apply in_map_iff in Ha as (s0 & <- & Hs0).
  assert (X : In s0 (free m)) by (apply filter_In; split; [exact Hs0|]; apply negb_true_iff; destruct (existsb _ _) eqn:X; [|reflexivity]; now apply existsb_eq_in in X).
  rewrite FREE in X. exact X.
Qed.
Definition group_kept (g g' : kind_in * bytes * list Z) : Prop := fst g' = fst g /\ Permutation (snd g') (map to_w (snd g)).
Lemma groups_part {T} ty nm (h : Coll T -> kind_in * bytes * list Z) mine ws :
  (exists cs, Permutation ws cs /\ Forall2 (coll_kept ty nm) mine cs) ->
  (forall c, snd (h c) = c_items c) -> (forall c c', c_type c' = ty (c_type c) -> c_name c' = Some (nm c) -> fst (h c') = fst (h c)) ->
  exists gs, Permutation (map h ws) gs /\ Forall2 group_kept (map h mine) gs.
Proof.
  intros (cs & P & H) Hs Hf. exists (map h cs). split; [now apply Permutation_map|]. clear P. induction H as [|c c' mine cs (H1 & H2 & H3) _ IH]; constructor; [|exact IH].
  split; [now apply Hf|]. now rewrite !Hs.
Qed.
Lemma Forall2_join {A B} (P : A -> B -> Prop) a b c d : Forall2 P a b -> Forall2 P c d -> Forall2 P (a ++ c) (b ++ d).
Proof. intros H1 H2. induction H1; [exact H2|]. cbn [app]. now constructor. Qed.
Lemma groups_kept : exists gs, Permutation (groups uuid_text w) gs /\ Forall2 group_kept (groups uuid_text m) gs.
Proof.
  destruct colls_kept as (H1 & H2 & H3). unfold groups. rewrite FREE, free_kept. cbn [map].
  apply (groups_part _ _ (fun c : Coll unit => (KBoundary, underscored (label uuid_text (c_name c) (c_id c)), c_items c))) in H1 as (g1 & P1 & H1);
    [|reflexivity|intros c c' _ En; cbn [fst snd]; unfold label; rewrite En; cbn iota; now rewrite underscored_twice].
  apply (groups_part _ _ (fun c => (KFault (kept_fault (c_type c)), label uuid_text (c_name c) (c_id c), c_items c))) in H2 as (g2 & P2 & H2);
    [|reflexivity|intros c c' Et En; cbn [fst snd]; unfold label; rewrite En, Et; cbn iota; destruct (c_type c); reflexivity].
  apply (groups_part _ _ (fun c => (KHorizon (c_type c), label uuid_text (c_name c) (c_id c), c_items c))) in H3 as (g3 & P3 & H3);
    [|reflexivity|intros c c' Et En; cbn [fst snd]; unfold label; rewrite En, Et; reflexivity].
  exists (g1 ++ g2 ++ g3 ++ []). split; [now repeat apply Permutation_app|]. repeat apply Forall2_join; auto.
Qed.

(** *** Blocks and units *)
Let mbids := map b_id (m_blocks m).
Definition block_kept (b b' : MBlock) : Prop :=
  b_name b' = Some (underscored (label uuid_text (b_name b) (b_id b))) /\
  Permutation (b_boundaries b') (map to_w (b_boundaries b)) /\ Permutation (b_internals b') (map to_w (b_internals b)).
Lemma mbids_nodup : NoDup mbids.
Proof. exact (nodup_sub _ _ (e_ids _ _ _ _ E)). Qed.
Lemma bids_nodup : NoDup bids.
Proof. exact (nodup_sub _ _ (ms_ids _ _ _ _ SEEN)). Qed.
Lemma holds_of ks ks' l : (forall k, In k ks <-> In k ks') -> holds ids ks l -> holds ids ks' l.
Proof. intros H [N K]. split; [exact N|]. intros i. rewrite K. split; intros (k & H1 & H2); exists k; split; auto; now apply H. Qed.
Lemma blocks_kept : exists bs, Permutation (m_blocks w) bs /\ map b_id bs = bids /\ Forall2 block_kept (m_blocks m) bs.
Proof.
  destruct (ms_blocks _ _ _ _ SEEN) as (bs & P & EB & H). exists bs. split; [exact P|]. split; [exact EB|].
  pose proof (Forall2_kept _ _ _ (Forall2_chain _ _ _ _ (l_blocks _ _ _ _ SM) _ H)) as K. revert K. apply Forall2_impl'. intros b b' (Hb & r & (S1 & S2 & S3) & N & H1 & H2).
  destruct (e_blocks _ _ _ _ E b Hb) as (_ & _ & ND & I & _). split; [rewrite N; now rewrite S1|]. split.
  - apply holds_perm; [intros i Hi; apply I, in_or_app; now left|exact (nodup_left _ _ ND)|]. revert H1. apply holds_of. intros k. exact (perm_in _ _ k S2).
  - apply holds_perm; [intros i Hi; apply I, in_or_app; now right|exact (nodup_sub _ _ ND)|]. revert H2. apply holds_of. intros k. exact (perm_in _ _ k S3).
Qed.
Definition to_wb (b : Z) : Z := match nthz bids (index_of b mbids) with Some i => i | None => 0 end.
Lemma to_wb_at b : In b mbids -> nthz bids (index_of b mbids) = Some (to_wb b).
Proof.
  intros H. destruct blocks_kept as (bs & _ & EB & K). apply F2_len in K. apply index_of_in, nthz_range in H. destruct (nthz_ex bids (index_of b mbids)) as [i Hi].
  - unfold mbids, lenz in *. rewrite map_length in H. rewrite <- EB, map_length, <- K. exact H.
  - unfold to_wb. rewrite Hi. reflexivity.
Qed.
Definition unit_kept (u c : Coll unit) : Prop := c_name c = c_name u /\ same_set (c_items c) (map to_wb (c_items u)).
Lemma units_part (mine : list (Coll unit)) (theirs : list (bytes * list Z)) ws : Forall2 (same_unit m) mine theirs -> 
  (exists cs, Permutation ws cs /\ Forall2 (unit_as bids) theirs cs) -> exists cs, Permutation ws cs /\ Forall2 unit_kept mine cs.
Proof.
  intros H (cs & P & K). exists cs. split; [exact P|]. pose proof (Forall2_chain _ _ _ _ H _ K) as X. revert X. apply Forall2_impl'.
  intros u c (u' & (S1 & S2) & N & _ & I). split; [congruence|]. intros i. rewrite I, in_map_iff.
  assert (AT : forall b k, nth_error mbids (Z.to_nat k) = Some b /\ 0 <= k -> In b mbids /\ k = index_of b mbids).
  { intros b k [X1 X2]. assert (X : nthz mbids k = Some b).
    { unfold nthz. replace ((0 <=? k) && (k <? Z.of_nat (List.length mbids))) with true; [exact X1|]. symmetry. apply andb_true_iff. split; [now apply Z.leb_le|].
      apply Z.ltb_lt. assert (Z.to_nat k < List.length mbids)%nat by (apply nth_error_Some; congruence). lia. }
    split; [now apply nthz_in in X|]. now apply index_of_nthz; [apply mbids_nodup|]. }
  split.
  - intros (k & Hk & Hi). destruct (Forall2_in_r _ _ _ _ S2 Hk) as (b & Hb & X). apply AT in X as [B1 ->]. exists b. split; [|exact Hb]. rewrite (to_wb_at b B1) in Hi. congruence.
  - intros (b & <- & Hb). destruct (Forall2_in_l _ _ _ _ S2 Hb) as (k & Hk & X). apply AT in X as [B1 ->]. exists (index_of b mbids). split; [exact Hk|]. now apply to_wb_at.
Qed.
Lemma units_kept : (exists cs, Permutation (m_units w) cs /\ Forall2 unit_kept (m_units m) cs) /\ (exists cs, Permutation (m_fblocks w) cs /\ Forall2 unit_kept (m_fblocks m) cs).
Proof.
  split.
  - exact (units_part _ _ _ (l_units _ _ _ _ SM) (ms_units _ _ _ _ SEEN)).
  - exact (units_part _ _ _ (l_fblocks _ _ _ _ SM) (ms_fblocks _ _ _ _ SEEN)).
Qed.

(** *** The loaded model can be exported *)
Lemma sum_perm (a b : list Z) : Permutation a b -> fold_right Z.add 0 a = fold_right Z.add 0 b.
Proof. induction 1; cbn [fold_right]; lia. Qed.
Lemma again_exportable us' rs' :
  (forall i, In i (flat_map c_items (m_bounds w)) -> exists x, find_id us' i = Some x) ->
  (forall b i, In b (m_blocks w) -> In i (b_boundaries b) -> exists x, find_pair rs' (b_id b) i = Some x) ->
  exportable uuid_text w us' rs'.
Proof.
  intros HU HR. pose proof (seen_sound text out R ids bids w SEEN) as SS.
  destruct surfaces_kept as (ls & PS & HS). destruct groups_kept as (gs & PG & HG). destruct blocks_kept as (bs & PB & EB & HB). destruct units_kept as ((u1 & PU & HU1) & (u2 & PF & HU2)).
  constructor.
  - exact (ss_ids _ SS).
  - apply Forall_forall. intros s' Hs'. assert (H' := Hs'). apply (perm_in _ _ _ PS) in Hs'. destruct (Forall2_in_r _ _ _ _ HS Hs') as (s & Hs & _ & T & _).
    pose proof (e_surfaces _ _ _ _ E) as ES. rewrite Forall_forall in ES. specialize (ES s Hs). constructor.
    + rewrite T. exact (ps_some _ ES).
    + pose proof (ss_tris _ SS) as X. rewrite Forall_forall in X. exact (X s' H').
    + intros loop e. exact (ms_loops _ _ _ _ SEEN s' loop e H').
  - intros i Hi. apply (ss_items _ SS). exact Hi.
  - apply (Permutation_NoDup (Permutation_sym grouped_kept)). apply map_nodup; [|exact (e_once _ _ _ _ E)].
    intros a b Ha Hb. apply to_w_inj; now apply (e_items _ _ _ _ E).
  - rewrite (ms_others _ _ _ _ SEEN). intros s [].
  - intros g Hg. apply (perm_in _ _ _ PG) in Hg. destruct (Forall2_in_r _ _ _ _ HG Hg) as (g0 & Hg0 & _ & P). intros X. rewrite X in P. apply Permutation_nil in P.
    apply (e_nonempty _ _ _ _ E g0 Hg0). now apply map_eq_nil in P.
  - destruct (seen_named out ids bids w SEEN) as (N1 & N2 & _). now split.
  - intros g Hg. apply (perm_in _ _ _ PG) in Hg. destruct (Forall2_in_r _ _ _ _ HG Hg) as (g0 & Hg0 & X & _). unfold gname. rewrite X. exact (e_clean _ _ _ _ E g0 Hg0).
  - apply (Permutation_NoDup (l := map gname (groups uuid_text m))); [|exact (e_distinct _ _ _ _ E)]. apply Permutation_sym. rewrite (Permutation_map gname PG).
    replace (map gname gs) with (map gname (groups uuid_text m)); [reflexivity|]. clear - HG. induction HG as [|g g' a b [H _] _ IH]; [reflexivity|]. cbn [map]. unfold gname at 1 3. now rewrite H, IH.
  - intros n Hn. rewrite (ms_title _ _ _ _ SEEN), (l_title _ _ _ _ SM) in Hn. destruct (m_title m) as [t|] eqn:Et; cbn [option_map] in Hn; [|discriminate Hn].
    assert (n = normalise t) as -> by congruence. apply normalise_line. now apply (e_title _ _ _ _ E).
  - exact (seen_contacts text out R ids bids w SEEN).
  - exact HU.
  - exact HR.
  - intros b' Hb'. assert (H' := Hb'). apply (perm_in _ _ _ PB) in Hb'. destruct (Forall2_in_r _ _ _ _ HB Hb') as (b & Hb & N & P1 & P2).
    destruct (e_blocks _ _ _ _ E b Hb) as (C & U & ND & I & L). unfold label at 1 2. rewrite N. cbn iota. rewrite underscored_twice. split; [exact C|]. split; [exact U|]. split.
    + apply (Permutation_NoDup (l := map to_w (b_boundaries b ++ b_internals b))).
      * rewrite map_app. apply Permutation_sym. now apply Permutation_app.
      * apply map_nodup; [|exact ND]. intros x y Hx Hy. apply to_w_inj; now apply I.
    + split; [intros s Hs; exact (ss_blocks _ SS b' s H' Hs)|]. apply Permutation_length in P1, P2. rewrite map_length in P1, P2. lia.
  - intros u Hu. split.
    + apply in_app_or in Hu as [Hu|Hu].
      * apply (perm_in _ _ _ PU) in Hu. destruct (Forall2_in_r _ _ _ _ HU1 Hu) as (u0 & Hu0 & -> & _). apply (e_units _ _ _ _ E u0), in_or_app. now left.
      * apply (perm_in _ _ _ PF) in Hu. destruct (Forall2_in_r _ _ _ _ HU2 Hu) as (u0 & Hu0 & -> & _). apply (e_units _ _ _ _ E u0), in_or_app. now right.
    + intros b Hb. exact (ss_units _ SS u b Hu Hb).
  - destruct (e_size _ _ _ _ E) as (Z1 & Z2 & Z3).
    assert (L1 : lenz (m_surfaces w) = lenz (m_surfaces m)) by (unfold lenz; rewrite (Permutation_length PS), (F2_len HS); reflexivity).
    assert (L2 : lenz (m_blocks w) = lenz (m_blocks m)) by (unfold lenz; rewrite (Permutation_length PB), (F2_len HB); reflexivity).
    assert (L3 : nb_points (m_surfaces w) = nb_points (m_surfaces m)).
    { unfold nb_points. rewrite (sum_perm _ _ (Permutation_map _ PS)). f_equal. clear - HS. induction HS as [|s s' a b (_ & _ & H) _ IH]; [reflexivity|]. cbn [map]. f_equal; [|exact IH].
      apply F2_len in H. unfold lenz. apply (f_equal Z.of_nat). symmetry. exact H. }
    rewrite L1, L2, L3. auto.
Qed.

(** *** What is loaded the second time *)
Context (out' : MlIn F) (nb' : Z -> Z) (SM' : same_model uuid_text w out' nb').
Definition to_b (b : Z) : Z := index_of (to_wb b) (map b_id (m_blocks w)).
Lemma wids_in a : In a mids -> In (to_w a) (map s_id (m_surfaces w)).
Proof. intros H. apply (seen_surfaces out ids bids w SEEN). exact (nthz_in _ _ _ (to_w_at a H)). Qed.
Lemma set_map (f g : Z -> Z) a b c : Permutation a (map f b) -> Permutation b (map g c) -> same_set a (map (fun x => f (g x)) c).
Proof. intros P1 P2 x. rewrite (perm_in _ _ x P1), (perm_in _ _ x (Permutation_map f P2)), map_map. reflexivity. Qed.
Lemma units_again (mine ws : list (Coll unit)) (theirs : list (bytes * list Z)) :
  (exists cs, Permutation ws cs /\ Forall2 unit_kept mine cs) -> Forall2 (same_unit w) ws theirs -> (forall u, In u mine -> incl (c_items u) mbids) ->
  exists us, Permutation theirs us /\ Forall2 (fun u u' => c_name u = Some (fst u') /\ same_set (snd u') (map to_b (c_items u))) mine us.
Proof.
  intros (cs & P & K) H I. destruct (Permutation_Forall2 P H) as (l & P' & H'). exists l. split; [exact P'|].
  pose proof (Forall2_kept _ _ _ (Forall2_chain _ _ _ _ K _ H')) as X. revert X. apply Forall2_impl'. intros u u' (Hu & c & (N1 & S1) & N2 & S2). split; [congruence|].
  pose proof (nodup_sub _ _ (ss_ids _ (seen_sound text out R ids bids w SEEN))) as ND.
  assert (AT : forall b k, nth_error (map b_id (m_blocks w)) (Z.to_nat k) = Some b /\ 0 <= k -> k = index_of b (map b_id (m_blocks w))).
  { intros b k [X1 X2]. apply index_of_nthz; [exact ND|]. 
    unfold nthz. replace ((0 <=? k) && (k <? Z.of_nat (List.length (map b_id (m_blocks w))))) with true; [exact X1|]. symmetry. apply andb_true_iff. split; [now apply Z.leb_le|].
    apply Z.ltb_lt. assert (Z.to_nat k < List.length (map b_id (m_blocks w)))%nat by (apply nth_error_Some; congruence). lia. }
  intros k. rewrite in_map_iff. split.
  - intros Hk. destruct (Forall2_in_r _ _ _ _ S2 Hk) as (b & Hb & X). apply AT in X. apply S1, in_map_iff in Hb as (b0 & <- & Hb0). exists b0. split; [now rewrite X|exact Hb0].
  - intros (b0 & <- & Hb0). assert (Hb : In (to_wb b0) (c_items c)) by (apply S1; now apply in_map). destruct (Forall2_in_l _ _ _ _ S2 Hb) as (k & Hk & X). apply AT in X. unfold to_b. now rewrite <- X.
Qed.
Lemma again_kept : kept uuid_text m out' (fun a => nb' (to_w a)) to_b.
Proof.
  destruct surfaces_kept as (ls & PS & HS). destruct groups_kept as (gs & PG & HG). destruct blocks_kept as (bs & PB & EB & HB). destruct units_kept as (UK1 & UK2).
  constructor.
  - split.
    + destruct (l_number _ _ _ _ SM') as [H _]. rewrite H. unfold lenz. rewrite (Permutation_length PS), (F2_len HS). reflexivity.
    + pose proof (F2_len (l_blocks _ _ _ _ SM')) as H. unfold lenz. rewrite <- H, (Permutation_length PB), (F2_len HB). reflexivity.
  - intros a b Ha Hb H. apply to_w_inj; [exact Ha|exact Hb|]. apply (l_distinct _ _ _ _ SM'); [now apply wids_in|now apply wids_in|exact H].
  - intros s Hs. destruct (Forall2_in_l _ _ _ _ HS Hs) as (s' & Hs' & I & T & P). apply (perm_in _ _ _ PS) in Hs'. destruct (l_mesh _ _ _ _ SM' s' Hs') as (mesh & Hm & C & P').
    exists mesh, (s_points s'). rewrite <- I. split; [exact Hm|]. split; [congruence|]. auto.
  - exists (map (fun g => mkCollIn (fst (fst g)) (gname g) (map nb' (snd g))) gs). split.
    + destruct (l_colls _ _ _ _ SM') as (more & -> & H). rewrite (H free_kept), app_nil_r. now apply Permutation_map.
    + apply Forall2_map_r. revert HG. apply Forall2_impl'. intros g g' [H1 H2]. cbn [ci_kind ci_name ci_surfaces]. unfold gname. rewrite H1. split; [reflexivity|]. split; [reflexivity|].
      intros x. rewrite (perm_in _ _ x (Permutation_map nb' H2)), map_map. reflexivity.
  - intros b Hb. assert (Hin : In (b_id b) mbids) by now apply in_map. destruct (in_nthz _ _ Hb) as [k Hk]. destruct (Forall2_nthz _ _ _ HB k b Hk) as (b1 & Hk1 & N & P1 & P2).
    assert (Ek : k = index_of (b_id b) mbids) by (apply index_of_nthz; [exact mbids_nodup|]; unfold mbids; rewrite nthz_map, Hk; reflexivity).
    assert (EW : to_wb (b_id b) = b_id b1).
    { pose proof (to_wb_at _ Hin) as X. rewrite <- Ek, <- EB, nthz_map, Hk1 in X. cbn [option_map] in X. congruence. }
    assert (Hw : In b1 (m_blocks w)) by (apply (perm_in _ _ _ PB); now apply nthz_in in Hk1). destruct (in_nthz _ _ Hw) as [j Hj].
    assert (Ej : j = to_b (b_id b)).
    { unfold to_b. rewrite EW. apply index_of_nthz; [exact (nodup_sub _ _ (ss_ids _ (seen_sound text out R ids bids w SEEN)))|]. rewrite nthz_map, Hj. reflexivity. }
    destruct (Forall2_nthz _ _ _ (l_blocks _ _ _ _ SM') j b1 Hj) as (b2 & Hb2 & S1 & S2 & S3). exists b2. rewrite <- Ej. split; [exact Hb2|]. split.
    + rewrite S1. unfold label at 1. rewrite N. cbn iota. apply underscored_twice.
    + split; eapply set_map; eassumption.
  - apply (units_again _ _ _ UK1 (l_units _ _ _ _ SM')). intros u Hu b Hb. apply (e_units _ _ _ _ E u (in_or_app _ _ _ (or_introl Hu))). exact Hb.
  - apply (units_again _ _ _ UK2 (l_fblocks _ _ _ _ SM')). intros u Hu b Hb. apply (e_units _ _ _ _ E u (in_or_app _ _ _ (or_intror Hu))). exact Hb.
Qed.
End Again.

(** A model exported to .ml with its surfaces all in a model boundary, a fault or a horizon, loaded, and whose sides are found again, is exported again; what is loaded from
    the second file is the first model: surfaces, collections with their kinds and names, blocks, units and fault blocks, up to their order. *)
Theorem C146_saved_again : forall (F : Num) uuid_text (m : SModel F) g,
  num_ok F -> coords_not_keywords F -> (exists us rs, exportable uuid_text m us rs) -> sides_found m g -> free m = [] ->
  exists text out, export_ml uuid_text m g = Ok text /\ read_ml F text = Ok out /\
    forall ids bids w g', ml_seen out ids bids w -> sides_found w g' ->
    exists text' out' nb bn, export_ml uuid_text w g' = Ok text' /\ read_ml F text' = Ok out' /\ kept uuid_text m out' nb bn /\
      o_title out' = option_map normalise (o_title out).
Proof.
  intros F u m g HF HK EX SF FREE. destruct (C142_reloaded F u m g HF HK EX SF) as (text & out & nb & E1 & E2 & SM). exists text, out. split; [exact E1|]. split; [exact E2|].
  intros ids bids w g' SEEN SF'. destruct EX as (us & rs & EX).
  assert (EX' : exists us rs, exportable u w us rs).
  { destruct SF' as (us' & rs' & X). destruct (sides_cover _ _ _ _ _ _ _ X) as [U V]. exists us', rs'. apply (again_exportable u m us rs EX FREE text out E2 nb SM ids bids w SEEN).
    - intros i Hi. apply U. now rewrite <- flat_map_concat_map.
    - intros b i Hb Hi. apply (V (b_id b) (b_boundaries b) i); [|exact Hi]. apply in_map_iff. now exists b. }
  destruct (C142_reloaded F u w g' HF HK EX' SF') as (text' & out' & nb' & W1 & W2 & SM'). exists text', out'. eexists. eexists. split; [exact W1|]. split; [exact W2|]. split.
  - exact (again_kept u m us rs EX FREE text out E2 nb SM ids bids w SEEN out' nb' SM').
  - rewrite (l_title _ _ _ _ SM'), (ms_title _ _ _ _ SEEN). reflexivity.
Qed.
Print Assumptions C146_saved_again.

(** ** Cases: a tetrahedron *)
(** [w] is the model of the lists, when they are what was loaded *)
Definition tetra_model (title : bytes) (bounds : list (Coll unit)) (horizons : list (Coll contact_type)) (name : option bytes) (units : list (Coll unit)) : SModel ExNum :=
  mkSModel (F:=ExNum) (Some title) [tetra_surf 40; tetra_surf 10; tetra_surf 20; tetra_surf 30] bounds [] horizons [] [mkBlock 7 name [30; 40; 20; 10] []] units [].
Definition tetra_loaded (title : bytes) (ids : list Z) (out : MlIn ExNum) : Prop :=
  o_title out = Some title /\ lenz (o_surfaces out) = 4 /\
  map (fun p => (fst p, m_points (snd p), m_cells (snd p))) (o_meshes out) = map (fun k => (k, s_points (tetra_surf (nth (Z.to_nat k) ids 0)), [(0, 1, 2)])) [0; 1; 2; 3] /\
  map (fun b => (bi_name b, bi_boundaries b, bi_internals b)) (o_blocks out) = [(lit "uuid7", [0; 1; 2; 3], [])] /\
  o_fblocks out = [].
Lemma holds_case ids ks l : NoDup ids -> Permutation l (map (fun k => nth (Z.to_nat k) ids 0) ks) -> NoDup ks -> Forall (fun k => 0 <= k < lenz ids) ks -> holds ids ks l.
Proof.
  intros NI P ND R. rewrite Forall_forall in R. assert (AT : forall k, In k ks -> nthz ids k = Some (nth (Z.to_nat k) ids 0)).
  { intros k Hk. destruct (nthz_ex ids k (R k Hk)) as [x Hx]. rewrite Hx. unfold nthz in Hx. destruct (_ && _); [|discriminate Hx]. f_equal. symmetry. now apply nth_error_nth. }
  split.
  - apply (Permutation_NoDup (Permutation_sym P)). apply map_nodup; [|exact ND]. intros a b Ha Hb X. apply (nthz_inj ids a b (nth (Z.to_nat a) ids 0) NI); [now apply AT|]. rewrite X. now apply AT.
  - intros i. rewrite (perm_in _ _ i P), in_map_iff. split; [intros (k & <- & Hk); exists k; auto|]. intros (k & Hk & Hi). exists k. split; [|exact Hk]. rewrite (AT k Hk) in Hi. congruence.
Qed.
Lemma tetra_seen title bounds horizons units ids (out : MlIn ExNum) : tetra_loaded title ids out -> Permutation ids [10; 20; 30; 40] ->
  (exists cs, Permutation bounds cs /\ Forall2 (coll_as (fun _ => KBoundary) ids) (filter is_boundary (o_colls out)) cs) -> filter is_fault (o_colls out) = [] ->
  (exists cs, Permutation horizons cs /\ Forall2 (coll_as KHorizon ids) (filter is_horizon (o_colls out)) cs) ->
  (exists cs, Permutation units cs /\ Forall2 (unit_as [7]) (o_units out) cs) ->
  ml_seen out ids [7] (tetra_model title bounds horizons (Some (lit "uuid7")) units).
Proof.
  intros (T1 & T2 & T3 & T4 & T5) PI HB HFa HHor HUn.
  assert (L4 : List.length ids = 4%nat) by (rewrite (Permutation_length PI); reflexivity).
  assert (ND : NoDup ids) by (apply (Permutation_NoDup (Permutation_sym PI)); nodup).
  assert (IDS : ids = map (fun k => nth (Z.to_nat k) ids 0) [0; 1; 2; 3]) by (destruct ids as [|a [|b [|c [|d [|]]]]]; try discriminate L4; reflexivity).
  constructor; cbn [tetra_model m_title m_surfaces m_bounds m_faults m_horizons m_others m_blocks m_units m_fblocks]; auto.
  - apply (Permutation_NoDup (l := [10; 20; 30; 40] ++ [7])); [apply Permutation_app_tail, Permutation_sym, PI|]. cbn. nodup.
  - exists (map tetra_surf ids). split; [|split; [|split]].
    + change [tetra_surf 40; tetra_surf 10; tetra_surf 20; tetra_surf 30] with (map tetra_surf [40; 10; 20; 30]). apply Permutation_map, Permutation_sym. rewrite PI.
      apply (Permutation_app_comm [10; 20; 30] [40]).
    + rewrite map_map. rewrite <- (map_id ids) at 2. apply map_ext. intros s. unfold tetra_surf. destruct (ex_tri s) as [[a b] c]. reflexivity.
    + rewrite T2. unfold lenz. rewrite map_length, L4. reflexivity.
    + intros k s mesh Hk Hm. assert (X : In (k, m_points mesh, m_cells mesh) (map (fun p => (fst p, m_points (snd p), m_cells (snd p))) (o_meshes out))) by (apply in_map_iff; exists (k, mesh); auto).
      rewrite T3 in X. apply in_map_iff in X as (j & X & _). injection X as -> X1 X2. rewrite nthz_map in Hk. destruct (nthz ids k) as [i|] eqn:Ei; [|discriminate Hk]. cbn [option_map] in Hk.
      assert (s = tetra_surf i) as -> by congruence. assert (nth (Z.to_nat k) ids 0 = i) as E0.
      { unfold nthz in Ei. destruct (_ && _); [|discriminate Ei]. now apply nth_error_nth. }
      rewrite E0 in X1. split; [exact X1|]. rewrite <- X2. unfold tetra_surf. destruct (ex_tri i) as [[a b] c]. reflexivity.
  - intros s loop e Hs. assert (exists i, s = tetra_surf i) as [i ->] by (destruct Hs as [<-|[<-|[<-|[<-|[]]]]]; eexists; reflexivity). apply (ps_loops _ (tetra_proper i)).
  - exists []. rewrite HFa. split; constructor.
  - exists [mkBlock 7 (Some (lit "uuid7")) [30; 40; 20; 10] []]. split; [reflexivity|]. split; [reflexivity|].
    destruct (o_blocks out) as [|b [|]]; try discriminate T4. cbn [map] in T4. 
    pose proof (f_equal (fun l => match l with (n, _, _) :: _ => n | [] => [] end) T4) as E1. pose proof (f_equal (fun l => match l with (_, n, _) :: _ => n | [] => [] end) T4) as E2.
    pose proof (f_equal (fun l => match l with (_, _, n) :: _ => n | [] => [] end) T4) as E3. cbv beta iota in E1, E2, E3. constructor; [|constructor]. cbn [b_name b_boundaries b_internals].
    rewrite E2, E3. split; [now rewrite E1|]. split.
    + apply holds_case; [exact ND| |nodup|apply Forall_forall; intros k Hk; unfold lenz; rewrite L4; cbn [In] in Hk; lia]. rewrite <- IDS, PI.
      apply (Permutation_trans (l' := [10; 20] ++ [30; 40])); [|reflexivity]. rewrite <- (Permutation_app_comm [30; 40]). apply (perm_skip 30), (perm_skip 40). apply perm_swap.
    + split; [constructor|]. intros i. split; [intros []|intros (k & [] & _)].
  - exists []. rewrite T5. split; constructor.
Qed.

Definition fineb {A} (r : res A) : bool := match r with Ok _ => true | _ => false end.
Definition value {A} (d : A) (r : res A) : A := match r with Ok x => x | _ => d end.
Lemma value_ok {A} (d : A) r : fineb r = true -> r = Ok (value d r).
Proof. destruct r; cbn; intros H; [reflexivity|discriminate H|discriminate H|discriminate H]. Qed.
Definition no_model : MlIn ExNum := mkMlIn (F:=ExNum) None [] [] [] [] [] [].
Definition out_of (m : SModel ExNum) : MlIn ExNum := value no_model (read_ml ExNum (value [] (export_ml ex_uuid m tetra_shape))).

(** Two model boundaries, a horizon with blanks in its name, a stratigraphic unit *)
Definition with_top : SModel ExNum :=
  tetra_model (lit "tetra") [mkColl 1 (Some (lit "two sides")) tt [10; 20]; mkColl 2 None tt [40]] [mkColl 3 (Some (lit "top of it")) CTopography [30]] None [mkColl 9 (Some (lit "layer")) tt [7]].
Definition with_top_again : SModel ExNum :=
  tetra_model (lit "tetra") [mkColl 5 (Some (lit "uuid2")) tt [40]; mkColl 6 (Some (lit "two_sides")) tt [20; 10]] [mkColl 8 (Some (lit "top of it")) CTopography [30]] (Some (lit "uuid7"))
    [mkColl 9 (Some (lit "layer")) tt [7]].
Lemma tetra_exportable bounds horizons name units us rs : let m := tetra_model (lit "tetra") bounds horizons name units in
  (forall i, In i (grouped m) -> In i [40; 10; 20; 30]) -> NoDup (grouped m) -> (forall g, In g (groups ex_uuid m) -> snd g <> [] /\ cleanb (gname g) = true) ->
  NoDup (map gname (groups ex_uuid m)) -> (forall c, In c horizons -> c_name c <> None /\ c_type c <> CErosion /\ c_type c <> CBaselap) ->
  cleanb (underscored (label ex_uuid name 7)) = true -> underscored (label ex_uuid name 7) <> lit "Universe" ->
  (forall u, In u units -> (exists n, c_name u = Some n /\ cleanb n = true) /\ forall b, In b (c_items u) -> b = 7) ->
  (forall s, In s (flat_map c_items bounds) -> exists x, find_id us s = Some x) ->
  (forall s, In s [30; 40; 20; 10] -> exists x, find_pair rs 7 s = Some x) ->
  exportable ex_uuid m us rs.
Proof.
  intros m H1 H2 H3 H4 H5 H6 H7 H8 H9 H10. constructor; try assumption.
  - cbn. nodup.
  - cbn [m m_surfaces tetra_model]. repeat (apply Forall_cons; [apply tetra_proper|]). constructor.
  - intros s [].
  - intros g Hg. now apply H3.
  - split; [intros c []|]. intros c Hc. now apply H5.
  - intros g Hg. apply cleanb_ok. now apply H3.
  - intros n Hn. pose proof (f_equal (fun o => match o with Some x => x | None => [] end) Hn) as X. cbv beta iota in X. rewrite <- X. apply lineb_ok. reflexivity.
  - intros c Hc. now apply H5.
  - intros b s [<-|[]] Hs. now apply H10.
  - intros b [<-|[]]. cbn [b_name b_id b_boundaries b_internals]. split; [now apply cleanb_ok|]. split; [exact H7|]. split; [cbn; nodup|]. split; [cbn; intros; tauto|]. cbn. lia.
  - intros u Hu. apply in_app_or in Hu as [Hu|[]]. destruct (H8 u Hu) as ((n & N1 & N2) & H). split; [exists n; split; [exact N1|now apply cleanb_ok]|].
    intros b Hb. cbn. left. symmetry. now apply H.
  - cbn. lia.
Qed.
Example C146_case :
  (exists us rs, exportable ex_uuid with_top us rs) /\ sides_found with_top tetra_shape /\ free with_top = [] /\
  export_ml ex_uuid with_top tetra_shape = Ok (value [] (export_ml ex_uuid with_top tetra_shape)) /\
  read_ml ExNum (value [] (export_ml ex_uuid with_top tetra_shape)) = Ok (out_of with_top) /\
  ml_seen (out_of with_top) [10; 20; 40; 30] [7] with_top_again /\ sides_found with_top_again tetra_shape.
Proof.
  split; [|split; [|split; [reflexivity|split; [|split; [|split]]]]].
  - exists [(10, true); (20, false); (40, true)], [(7, 30, false); (7, 40, false); (7, 20, true); (7, 10, false)]. apply tetra_exportable.
    + intros i Hi. cbn in Hi |- *. tauto.
    + cbn. nodup.
    + intros g Hg. vm_compute in Hg. cases; (split; [discriminate|reflexivity]).
    + vm_compute. nodup.
    + intros c [<-|[]]. repeat split; discriminate.
    + reflexivity.
    + discriminate.
    + intros u [<-|[]]. split; [eexists; split; reflexivity|]. intros b [<-|[]]. reflexivity.
    + intros s Hs. cbn in Hs. cases; eexists; reflexivity.
    + intros s Hs. cbn in Hs. cases; eexists; reflexivity.
  - eexists. eexists. vm_compute. reflexivity.
  - apply value_ok. vm_compute. reflexivity.
  - apply value_ok. vm_compute. reflexivity.
  - apply tetra_seen.
    + repeat split; vm_compute; reflexivity.
    + apply (perm_skip 10), (perm_skip 20), perm_swap.
    + exists [mkColl 6 (Some (lit "two_sides")) tt [20; 10]; mkColl 5 (Some (lit "uuid2")) tt [40]]. split; [apply perm_swap|].
      replace (filter is_boundary (o_colls (out_of with_top))) with [mkCollIn KBoundary (lit "two_sides") [0; 1]; mkCollIn KBoundary (lit "uuid2") [2]] by (vm_compute; reflexivity).
      constructor; [|constructor; [|constructor]]; (split; [reflexivity|]; split; [reflexivity|]); apply holds_case; cbn; try nodup; try (repeat (apply Forall_cons; [lia|]); constructor); try apply perm_swap; reflexivity.
    + vm_compute. reflexivity.
    + exists [mkColl 8 (Some (lit "top of it")) CTopography [30]]. split; [reflexivity|].
      replace (filter is_horizon (o_colls (out_of with_top))) with [mkCollIn (KHorizon CTopography) (lit "top of it") [3]] by (vm_compute; reflexivity).
      constructor; [|constructor]. split; [reflexivity|]. split; [reflexivity|]. apply holds_case; cbn; try nodup; try (repeat (apply Forall_cons; [lia|]); constructor); reflexivity.
    + exists [mkColl 9 (Some (lit "layer")) tt [7]]. split; [reflexivity|]. replace (o_units (out_of with_top)) with [(lit "layer", [0])] by (vm_compute; reflexivity).
      constructor; [|constructor]. split; [reflexivity|]. apply holds_case; cbn; try nodup; try (repeat (apply Forall_cons; [lia|]); constructor); reflexivity.
  - eexists. eexists. vm_compute. reflexivity.
Qed.

(** Finding: with a surface in no collection the second file cannot be loaded. The first load puts that surface in two model boundaries, its own and the undefined boundary; the
    second export declares both but gives the surface to one of them, and the other, without any TFACE, has no feature: std::out_of_range. *)
Definition with_free : SModel ExNum := tetra_model (lit "tetra") [mkColl 1 (Some (lit "two sides")) tt [10; 20]; mkColl 2 None tt [30]] [] None [].
Definition with_free_again : SModel ExNum :=
  tetra_model (lit "tetra") [mkColl 1 (Some (lit "two_sides")) tt [10; 20]; mkColl 2 (Some (lit "uuid2")) tt [30]; mkColl 3 (Some (lit "uuid40")) tt [40]; mkColl 4 (Some (lit "undefined boundary")) tt [40]] []
    (Some (lit "uuid7")) [].
Theorem C146_saved_again_refuted :
  exists (m : SModel ExNum) g text out ids bids w text',
    (exists us rs, exportable ex_uuid m us rs) /\ sides_found m g /\ export_ml ex_uuid m g = Ok text /\ read_ml ExNum text = Ok out /\
    ml_seen out ids bids w /\ export_ml ex_uuid w g = Ok text' /\ read_ml ExNum text' = Throw ExOutOfRange.
Proof.
  exists with_free, tetra_shape, (value [] (export_ml ex_uuid with_free tetra_shape)), (out_of with_free), [10; 20; 30; 40], [7], with_free_again, (value [] (export_ml ex_uuid with_free_again tetra_shape)).
  split; [|split; [|split; [|split; [|split; [|split]]]]].
  - exists [(10, true); (20, false); (30, true)], [(7, 30, false); (7, 40, false); (7, 20, true); (7, 10, false)]. apply tetra_exportable.
    + intros i Hi. cbn in Hi |- *. tauto.
    + cbn. nodup.
    + intros g Hg. vm_compute in Hg. cases; (split; [discriminate|reflexivity]).
    + vm_compute. nodup.
    + intros c [].
    + reflexivity.
    + discriminate.
    + intros u [].
    + intros s Hs. cbn in Hs. cases; eexists; reflexivity.
    + intros s Hs. cbn in Hs. cases; eexists; reflexivity.
  - eexists. eexists. vm_compute. reflexivity.
  - apply value_ok. vm_compute. reflexivity.
  - apply value_ok. vm_compute. reflexivity.
  - apply tetra_seen.
    + repeat split; vm_compute; reflexivity.
    + reflexivity.
    + eexists. split; [reflexivity|].
      replace (filter is_boundary (o_colls (out_of with_free))) with
        [mkCollIn KBoundary (lit "two_sides") [0; 1]; mkCollIn KBoundary (lit "uuid2") [2]; mkCollIn KBoundary (lit "uuid40") [3]; mkCollIn KBoundary (lit "undefined boundary") [3]] by (vm_compute; reflexivity).
      constructor; [|constructor; [|constructor; [|constructor; [|constructor]]]]; (split; [reflexivity|]; split; [reflexivity|]); apply holds_case; cbn; try nodup;
        try (repeat (apply Forall_cons; [lia|]); constructor); reflexivity.
    + vm_compute. reflexivity.
    + exists []. split; [reflexivity|]. replace (filter is_horizon (o_colls (out_of with_free))) with (@nil CollIn) by (vm_compute; reflexivity). constructor.
    + exists []. split; [reflexivity|]. replace (o_units (out_of with_free)) with (@nil (bytes * list Z)) by (vm_compute; reflexivity). constructor.
  - apply value_ok. vm_compute. reflexivity.
  - assert (X : match read_ml ExNum (value [] (export_ml ex_uuid with_free_again tetra_shape)) with Throw ExOutOfRange => true | _ => false end = true) by (vm_compute; reflexivity).
    destruct (read_ml ExNum _) as [|e| |]; try discriminate X. destruct e; try discriminate X. reflexivity.
Qed.
Print Assumptions C146_saved_again_refuted.
