(** * Saving again a solid loaded from a .lso file (C145). *)
From Coq Require Import ZArith QArith List Lia Bool Ascii String Permutation.
From Verif Require Import Base Text TextFacts GocadModel MeshModel TsModel Spec GocadFacts TsFacts SignsModel PropsSigns LsoModel LsoFacts LsoRead LsoRound LsoFile LsoWhole LsoTrip LsoRel LsoCount PropsLso PropsLsoAccept.
From Verif Require Import PropsMlBrep PropsLsoSides ExNum ExCheck.
Import ListNotations.
Local Open Scope string_scope.
Local Open Scope list_scope.
Local Open Scope Z_scope.

(** ** Specification *)
(** [w] is the loaded model [m'] as the exporter reads it. [ids] are the identifiers the surfaces received when they were created; the orders of
    model.surfaces(), model.blocks() and model.horizons() are any. lso_input.cpp creates horizons (240), surfaces in them (253-257) and blocks (346-350); it never
    creates a fault or a model boundary. The points and names of the surfaces are not read by the exporter. *)
Record seen_as {F} (m' : LsoIn F) (ids : list Z) (w : LModel F) : Prop := {
  sa_title : l_title w = i_title m';
  sa_consistent : consistent w;
  sa_nuv : lenz (l_uv w) = i_nuv m';
  sa_ids : NoDup ids;
  sa_surfs : exists ss, Permutation (l_surfs w) ss /\ map f_id ss = ids /\ Forall2 (fun h s => f_tris s = h_tris h /\ f_uv s = h_uv h) (i_surfs m') ss;
  sa_blocks : exists bs, Permutation (l_blocks w) bs /\
     Forall2 (fun r b => k_name b = r_name r /\ k_points b = r_points r /\ k_tets b = r_tets r /\ k_uv b = r_uv r /\
                (forall i, In i (k_bounds b) <-> exists k, nthz ids k = Some i /\ In k (r_bounds r))) (i_blocks m') bs;
  sa_horizons : exists hs, Permutation (l_horizons w) hs /\
     Forall2 (fun e c => g_name c = fst (fst e) /\ forall i, In i (g_items c) <-> exists k, nthz ids k = Some i /\ snd (fst e) <= k < snd e) (i_horizons m') hs;
  sa_faults : l_faults w = [];
  sa_bounds : l_mbounds w = []
}.
(** The same model to which the user added model boundaries *)
Definition with_bounds {F} (w : LModel F) (mb : list LColl) : LModel F :=
  mkLModel (l_title w) (l_uv w) (l_blocks w) (l_surfs w) (l_horizons w) (l_faults w) mb.

(** ** What was loaded is never saved *)
(** Finding: whatever the file, the model loaded from it is refused by the .lso export: the sides cannot be found without a model boundary. *)
Theorem C145_loaded_not_saved {F} text (m' : LsoIn F) ids w g : read_lso F text = Ok m' -> seen_as m' ids w -> export_lso w g = Throw ExData.
Proof. intros _ H. apply C143_without_boundary. exact (sa_bounds _ _ _ H). Qed.
Print Assumptions C145_loaded_not_saved.

(** ** Names *)
Lemma drop_while_in p l c : In c (drop_while p l) -> In c l.
Proof. induction l as [|x l IH]; cbn [drop_while]; [auto|]. destruct (p x); [right; auto|auto]. Qed.
Lemma strip_in l c : In c (strip l) -> In c l.
Proof. unfold strip. intros H. apply drop_while_in in H. apply in_rev in H. apply drop_while_in in H. now apply in_rev. Qed.
Lemma flush_in cur w c : In w (flush cur) -> In c w -> In c cur.
Proof. unfold flush. destruct cur; [intros []|]. intros [<-|[]]. auto. Qed.
Lemma split_run_in l : forall cur w c, In w (split_run cur l) -> In c w -> In c cur \/ In c l.
Proof.
  induction l as [|x l IH]; intros cur w c Hw Hc; cbn [split_run] in Hw; [left; eapply flush_in; eauto|].
  destruct (is_sep x).
  - apply in_app_or in Hw as [Hw|Hw]; [left; eapply flush_in; eauto|]. destruct (IH _ _ _ Hw Hc) as [[]|H]. right. now right.
  - destruct (IH _ _ _ Hw Hc) as [H|H]; [|right; now right]. apply in_app_or in H as [H|[<-|[]]]; [now left|right; now left].
Qed.
Lemma join_in ws c : In c (join ws) -> c = SP \/ exists w, In w ws /\ In c w.
Proof.
  induction ws as [|w ws IH]; cbn [join]; [intros []|]. destruct ws as [|w2 ws].
  - intros H. right. exists w. split; [now left|exact H].
  - intros H. apply in_app_or in H as [H|[<-|H]]; [right; exists w; split; [now left|exact H]|now left|].
    destruct (IH H) as [->|(v & V1 & V2)]; [now left|]. right. exists v. split; [now right|exact V2].
Qed.
Lemma normalise_in n c : In c (normalise n) -> c = SP \/ In c n.
Proof.
  unfold normalise. intros H. apply filter_In in H as [H _]. apply join_in in H as [->|(w & W1 & W2)]; [now left|]. right.
  unfold string_split, words in W1. destruct (split_run_in _ _ _ _ W1 W2) as [[]|H]. now apply strip_in.
Qed.
Lemma normalise_plain n : plain n -> plain (normalise n).
Proof.
  unfold plain. rewrite !Forall_forall. intros H c Hc. destruct (normalise_in n c Hc) as [->|Hn]; [intros _; reflexivity|auto].
Qed.
Lemma normalise_line n : is_line n -> is_line (normalise n).
Proof. intros H Hc. destruct (normalise_in n LF Hc) as [E|Hn]; [discriminate E|exact (H Hn)]. Qed.
Lemma reread_same F p q q' : reread_point F p q -> reread_point F p q' -> q = q'.
Proof.
  destruct p as [[x y] z], q as [[a b] c], q' as [[a' b'] c']. unfold reread_point, reread_coord. intros (H1 & H2 & H3) (K1 & K2 & K3).
  congruence.
Qed.

(** A loaded block, seen as a block to save *)
Definition as_block {F} (r : LBlockR F) : LBlock F := mkLBlock 0 (r_name r) (r_points r) (r_tets r) (r_uv r) [].

(** ** The loaded model satisfies what saving needs, once there is a model boundary *)
Lemma inj_length {A B} (R : A -> B -> Prop) : (forall x x' y, R x y -> R x' y -> x = x') ->
  forall l l', NoDup l -> (forall x, In x l -> exists y, In y l' /\ R x y) -> (List.length l <= List.length l')%nat.
Proof.
  intros HR. induction l as [|x l IH]; intros l' ND H; [cbn; lia|]. inversion_clear ND as [|? ? N1 N2].
  destruct (H x (or_introl eq_refl)) as (y & Hy & Rxy). apply in_split in Hy as (l1 & l2 & ->).
  specialize (IH (l1 ++ l2) N2). rewrite app_length in *. cbn [List.length]. enough (List.length l <= List.length l1 + List.length l2)%nat by lia.
  apply IH. intros x' Hx'. destruct (H x' (or_intror Hx')) as (y' & Hy' & R'). exists y'. split; [|exact R'].
  apply in_app_or in Hy' as [Hy'|[E|Hy']]; [apply in_or_app; now left| |apply in_or_app; now right].
  exfalso. subst y'. apply N1. now rewrite (HR _ _ _ Rxy R').
Qed.
Lemma nb_others_le l : forall l', Forall2 (fun a b => lenz a <= lenz b) l l' -> nb_others l <= nb_others l'.
Proof. intros l' H. induction H as [|a b l l' HA _ IH]; [reflexivity|]. unfold nb_others in *. cbn [fold_right]. lia. Qed.
Lemma Forall2_of_nthz {A B} (R : A -> B -> Prop) : forall l l', lenz l = lenz l' -> (forall k x y, nthz l k = Some x -> nthz l' k = Some y -> R x y) -> Forall2 R l l'.
Proof.
  induction l as [|x l IH]; intros [|y l'] HL H; unfold lenz in HL; cbn [List.length] in HL; try lia; constructor.
  - now apply (H 0).
  - apply IH; [unfold lenz; lia|]. intros k a b Ha Hb. pose proof (nthz_range _ _ _ Ha). apply (H (k + 1)); rewrite nthz_cons; (destruct (Z.eqb_spec (k + 1) 0); [lia|]); now replace (k + 1 - 1) with k by lia.
Qed.
Lemma in_nthz {A} (l : list A) x : In x l -> exists k, nthz l k = Some x.
Proof.
  induction l as [|y l IH]; [intros []|]. intros [->|H]; [exists 0; reflexivity|]. destruct (IH H) as [k Hk]. exists (k + 1).
  pose proof (nthz_range _ _ _ Hk). rewrite nthz_cons. destruct (Z.eqb_spec (k + 1) 0); [lia|]. now replace (k + 1 - 1) with k by lia.
Qed.
Lemma Forall2_both {A B} (P Q : A -> B -> Prop) l l' : Forall2 P l l' -> Forall2 Q l l' -> Forall2 (fun x y => P x y /\ Q x y) l l'.
Proof. intros H. induction H; intros K; inversion_clear K; constructor; auto. Qed.
Lemma Forall2_swap {A B} (P : A -> B -> Prop) l l' : Forall2 P l l' -> Forall2 (fun y x => P x y) l' l.
Proof. induction 1; constructor; auto. Qed.
Lemma Forall2_in_r {A B} (P : A -> B -> Prop) l l' y : Forall2 P l l' -> In y l' -> exists x, In x l /\ P x y.
Proof. induction 1 as [|x z l l' H _ IH]; [intros []|]. intros [->|Hy]; [exists x; split; [now left|exact H]|]. destruct (IH Hy) as (v & V1 & V2). exists v. split; [now right|exact V2]. Qed.
Lemma Forall2_in_l {A B} (P : A -> B -> Prop) l l' x : Forall2 P l l' -> In x l -> exists y, In y l' /\ P x y.
Proof. intros H Hx. apply Forall2_swap in H. destruct (Forall2_in_r _ _ _ _ H Hx) as (y & Y1 & Y2). eauto. Qed.
Lemma F2_len {A B} {P : A -> B -> Prop} {l l'} : Forall2 P l l' -> List.length l = List.length l'.
Proof. induction 1; cbn [List.length]; congruence. Qed.
Lemma nthz_inj {A} (l : list A) i j x : NoDup l -> nthz l i = Some x -> nthz l j = Some x -> i = j.
Proof.
  intros ND. revert i j. induction ND as [|y l N ND IH]; intros i j Hi Hj; [apply nthz_in in Hi; destruct Hi|]. rewrite nthz_cons in Hi, Hj.
  destruct (Z.eqb_spec i 0) as [->|Ni], (Z.eqb_spec j 0) as [->|Nj]; [reflexivity|..].
  - exfalso. apply nthz_in in Hj. apply N. congruence.
  - exfalso. apply nthz_in in Hi. apply N. congruence.
  - specialize (IH _ _ Hi Hj). lia.
Qed.

Section Again.
Context {F : Num} (HF : num_ok F) (m : LModel F) (sides : Z -> Z -> option bool) (internals : Z -> list Z) (O : lso_ok m sides)
  (SA : saved_apart m) (CF : conforming m internals)
  (HT : forall s, In s (l_surfs m) -> f_tris s <> [] /\ all_different (surface_triangles s))
  (HI : forall b i, In b (l_blocks m) -> In i (internals (k_id b)) -> ~ In i (k_bounds b))
  (HU : forall b v, In b (l_blocks m) -> 0 <= v < lenz (k_points b) -> In v (flat_map quad_list (k_tets b)))
  (text : bytes) (m' : LsoIn F) (EW : write_lso m sides = Ok text) (ER : read_lso F text = Ok m')
  (ids : list Z) (w : LModel F) (SEEN : seen_as m' ids w).

Definition in_order (order : list Z) (b b' : LBlock F) : Prop :=
   NoDup order /\
   (forall v, In v order <-> In v (flat_map quad_list (k_tets b))) /\
   Forall2 (fun v p' => exists p, nthz (k_points b) v = Some p /\ reread_point F p p') order (k_points b') /\
   Forall2 (fun v u => nthz (k_uv b) v = Some u) order (k_uv b') /\
   Forall2 (fun t t' => Forall2 (fun v i => nthz order i = Some v) (quad_list t) (quad_list t')) (k_tets b) (k_tets b').
Definition linked (b b' : LBlock F) : Prop :=
  k_name b' = k_name b /\ (exists i, In i (k_bounds b')) /\ (forall i, In i (k_bounds b') -> exists k, nthz ids k = Some i) /\ exists order, in_order order b b'.

Lemma saved_facts :
  i_title m' = option_map normalise (l_title m) /\ i_nuv m' = lenz (l_uv m) /\
  Forall2 (fun i h => exists s, In s (l_surfs m) /\ exists name, surface_from m name (surface_triangles s) h) (all_ids m) (i_surfs m') /\
  (forall j h, nthz (i_surfs m') j = Some h -> exists e, In e (i_horizons m') /\ snd (fst e) <= j < snd e) /\
  (forall e, In e (i_horizons m') -> plain (fst (fst e))) /\
  exists bs, Permutation (l_blocks w) bs /\ Forall2 linked (l_blocks m) bs.
Proof.
  destruct (lso_saved_named HF m sides O) as (text1 & m1 & K1 & K2 & K3 & K4 & K5 & K6 & K7 & K8).
  assert (text1 = text) as -> by congruence. assert (m1 = m') as -> by congruence.
  split; [exact K3|]. split; [exact K4|]. split.
  { revert K6. apply Forall2_impl'. intros i h (s & name & E & _ & H). apply lsurf_id in E as [Hs _]. exists s. split; [exact Hs|]. eauto. }
  split. { intros j h Hj. destruct (K7 j h Hj) as (a & b & Hab & R). eexists. split; [exact Hab|exact R]. }
  split.
  { intros e He. destruct (K8 e He) as (c & Hc & ->). apply normalise_plain. pose proof (lo_coll_names m sides O) as P. rewrite Forall_forall in P. now apply P. }
  destruct (C80_relations_restored F m sides internals HF O SA CF HT HI) as (text2 & m2 & ids0 & E1 & E2 & _ & L2 & L3 & L4).
  assert (text2 = text) as -> by congruence. assert (m2 = m') as -> by congruence.
  destruct (sa_blocks _ _ _ SEEN) as (bs & P & HB). exists bs. split; [exact P|].
  destruct (sa_surfs _ _ _ SEEN) as (ss & _ & EI & HSS).
  assert (LEN : lenz ids0 = lenz ids).
  { unfold lenz. rewrite (F2_len L3), <- EI, map_length, (F2_len HSS). reflexivity. }
  pose proof (lo_sides m sides O) as LS. clear -K5 L2 L4 HB LEN LS SEEN.
  assert (LS' : forall b, In b (l_blocks m) -> exists s r, k_bounds b = s :: r /\ In s ids0).
  { intros b Hb. rewrite Forall_forall in LS. destruct (LS b Hb) as (s & r & side & H1 & _ & H3). exists s, r. split; [exact H1|].
    apply L2. apply in_flat_map in H3 as (c & C1 & C2). exists c. auto. }
  clear LS L2. revert LS' L4 bs HB. generalize (i_blocks m'), (l_blocks m), K5. clear K5. intros R B K5.
  induction K5 as [|b r B R [BL _] K5 IH]; intros LS L4 bs HB; inversion_clear HB as [|? b' ? bs' (H1 & H2 & H3 & H4 & H5) HB']; constructor.
  - inversion_clear L4 as [|? ? ? ? (_ & M) _]. destruct BL as (N1 & order & O1 & O2 & O3 & O4 & O5). split; [congruence|]. split.
    { destruct (LS b (or_introl eq_refl)) as (s & t & EB & Hs). destruct (in_nthz _ _ Hs) as [k Hk]. destruct (M k s Hk) as [M1 _].
      destruct (nthz_in_range ids k) as [i Hik]; [pose proof (nthz_range _ _ _ Hk); unfold lenz in *; lia|]. exists i. apply H5. exists k. split; [exact Hik|].
      apply M1. rewrite EB. now left. }
    split. { intros i Hi. apply H5 in Hi as (k & Hk & _). eauto. }
    exists order. unfold in_order. rewrite H2, H3, H4. auto.
  - apply IH; [intros b0 Hb0; apply LS; now right|inversion_clear L4; assumption|exact HB'].
Qed.

Lemma linked_corner b b' t' : linked b b' -> In t' (k_tets b') -> Forall (fun v => 0 <= v < lenz (k_points b')) (quad_list t').
Proof.
  intros (_ & _ & _ & order & _ & _ & P & _ & T) Ht. destruct (Forall2_in_r _ _ _ _ T Ht) as (t & _ & C). apply F2_len in P.
  apply Forall_forall. intros v Hv. destruct (Forall2_in_r _ _ _ _ C Hv) as (x & _ & X). apply nthz_range in X. unfold lenz in *. rewrite P in X. exact X.
Qed.
Lemma linked_uv b b' v' u : linked b b' -> nthz (k_uv b') v' = Some u -> exists v, nthz (k_uv b) v = Some u.
Proof.
  intros (_ & _ & _ & order & _ & _ & _ & U & _) Hv. apply Forall2_swap in U. destruct (Forall2_nthz _ _ _ U v' u Hv) as (v & _ & V). eauto.
Qed.
Lemma again_at u p' bs : Permutation (l_blocks w) bs -> Forall2 linked (l_blocks m) bs -> at_uv w u p' -> exists p, at_uv m u p /\ reread_point F p p'.
Proof.
  intros P LK (b' & v' & Hb' & Hu & Hp). apply (Permutation_in _ P) in Hb'. destruct (Forall2_in_r _ _ _ _ LK Hb') as (b & Hb & L).
  destruct L as (_ & _ & _ & order & _ & _ & PT & U & _).
  destruct (Forall2_nthz _ _ _ (Forall2_swap _ _ _ U) v' u Hu) as (v & V1 & V2). destruct (Forall2_nthz _ _ _ PT v' v V1) as (p2 & Q1 & (p & Q2 & Q3)).
  pose proof (eq_trans (eq_sym Q1) Hp) as E2. injection E2 as E2. subst p2. exists p. split; [|exact Q3]. exists b, v. auto.
Qed.

Lemma surf_ids i : In i (map f_id (l_surfs w)) <-> In i ids.
Proof. destruct (sa_surfs _ _ _ SEEN) as (ss & P & <- & _). apply (Permutation_map f_id) in P. split; apply Permutation_in; [exact P|now apply Permutation_sym]. Qed.
Lemma orders_exist B B' : Forall2 linked B B' -> exists os, List.length os = List.length B /\
  forall k b b', nthz B k = Some b -> nthz B' k = Some b' -> exists o, nthz os k = Some o /\ in_order o b b'.
Proof.
  induction 1 as [|b b' B B' (_ & _ & _ & o & Ho) _ (os & L & IH)].
  - exists []. split; [reflexivity|]. intros k b b' H. apply nthz_in in H. destruct H.
  - exists (o :: os). split; [cbn [List.length]; congruence|]. intros k c c' Hc Hc'. rewrite nthz_cons in Hc. rewrite nthz_cons in Hc'. rewrite nthz_cons. destruct (k =? 0); [|eauto].
    injection Hc as <-. injection Hc' as <-. eauto.
Qed.
Lemma again_rows (bs : list (LBlock F)) : Permutation (l_blocks w) bs -> Forall2 linked (l_blocks m) bs ->
  Forall2 (fun a b => a <> [] /\ lenz a <= lenz b) (l_uv w) (l_uv m).
Proof.
  intros P LK. destruct saved_facts as (_ & NU & _). pose proof (sa_consistent _ _ _ SEEN) as C'. pose proof (lo_consistent m sides O) as C.
  destruct (orders_exist _ _ LK) as (os & _ & OS).
  apply Forall2_of_nthz; [rewrite (sa_nuv _ _ _ SEEN); exact NU|]. intros u a b Ha Hb. split.
  - (* some vertex of a tetrahedron *)
    pose proof (lo_rows m sides O) as HN. rewrite Forall_forall in HN. specialize (HN b (nthz_in _ _ _ Hb)). destruct b as [|[id v] b]; [congruence|].
    destruct (cu_known m C _ _ (nthz_in _ _ _ Hb) (or_introl eq_refl)) as (bm & Hbm & E). cbn [fst] in E. subst id.
    pose proof (proj1 (cu_iff m C u _ bm v Hb Hbm) (or_introl eq_refl)) as Hv.
    assert (Hin : In v (flat_map quad_list (k_tets bm))).
    { apply HU; [exact Hbm|]. pose proof (cu_len m C) as L. rewrite Forall_forall in L. specialize (L bm Hbm). apply nthz_range in Hv. unfold lenz in *. lia. }
    destruct (in_nthz _ _ Hbm) as [k Hk]. destruct (Forall2_nthz _ _ _ LK k bm Hk) as (bw & Hk' & _). destruct (OS k bm bw Hk Hk') as (o & _ & _ & O2 & _ & O4 & _).
    apply O2, in_nthz in Hin as [j Hj]. destruct (Forall2_nthz _ _ _ O4 j v Hj) as (u' & U1 & U2). assert (u' = u) as -> by congruence.
    assert (Hbw : In bw (l_blocks w)) by (apply (Permutation_in _ (Permutation_sym P)); exact (nthz_in _ _ _ Hk')).
    pose proof (proj2 (cu_iff w C' u a bw j Ha Hbw) U1) as X. intros ->. exact X.
  - assert (forall x y : nat, (x <= y)%nat -> Z.of_nat x <= Z.of_nat y) as Q by (intros; lia). unfold lenz. apply Q. clear Q.
    pose proof (cu_nodup w C') as ND. rewrite Forall_forall in ND. specialize (ND a (nthz_in _ _ _ Ha)).
    apply (inj_length (fun x y : Z * Z => exists k bm bw o, nthz (l_blocks m) k = Some bm /\ nthz bs k = Some bw /\ nthz os k = Some o /\ fst x = k_id bw /\ fst y = k_id bm /\
                          NoDup o /\ nthz o (snd x) = Some (snd y))).
    + intros [x1 x2] [z1 z2] [y1 y2] (k & bm & bw & o & A1 & A2 & A3 & A4 & A5 & A6 & A7) (k' & bm' & bw' & o' & B1 & B2 & B3 & B4 & B5 & _ & B7).
      cbn [fst snd] in *. assert (k = k') as <-.
      { apply (nthz_inj (map k_id (l_blocks m)) k k' y1 (cu_ids m C)); rewrite nthz_map; [rewrite A1|rewrite B1]; cbn [option_map]; congruence. }
      assert (bw' = bw) as -> by congruence. assert (o' = o) as -> by congruence. f_equal; [congruence|]. exact (nthz_inj _ _ _ _ A6 A7 B7).
    + exact ND.
    + intros [id v'] Hx. destruct (cu_known w C' _ _ (nthz_in _ _ _ Ha) Hx) as (bw & Hbw & E). cbn [fst] in E. subst id.
      pose proof (proj1 (cu_iff w C' u _ bw v' Ha Hbw) Hx) as Hv. apply (Permutation_in _ P), in_nthz in Hbw as [k Hk'].
      destruct (Forall2_nthz _ _ _ (Forall2_swap _ _ _ LK) k bw Hk') as (bm & Hk & _). destruct (OS k bm bw Hk Hk') as (o & Ho & O1 & _ & _ & O4 & _).
      destruct (Forall2_nthz _ _ _ (Forall2_swap _ _ _ O4) v' u Hv) as (v & V1 & V2).
      exists (k_id bm, v). split; [apply (cu_iff m C u b bm v Hb (nthz_in _ _ _ Hk)); exact V2|]. exists k, bm, bw, o. cbn [fst snd]. auto 10.
Qed.
Lemma again_surf i h s0 name : surface_from m name (surface_triangles s0) h -> In s0 (l_surfs m) -> good_lsurf (lenz (l_uv m)) (mkLSurfW i (h_tris h) (h_uv h)).
Proof.
  intros (_ & _ & U & _ & T) Hs. pose proof (lo_surfs m sides O) as G. rewrite Forall_forall in G. specialize (G s0 Hs). split; cbn [f_tris f_uv].
  - intros E. rewrite E in T. apply (gl_some _ _ G). inversion T as [E'|]. unfold surface_triangles in E'. destruct (f_tris s0); [reflexivity|discriminate E'].
  - apply Forall_forall. intros t' Ht'. destruct (Forall2_in_r _ _ _ _ T Ht') as (t & _ & C). apply Forall_forall. intros v Hv.
    destruct (Forall2_in_r _ _ _ _ C Hv) as (x & _ & X). apply nthz_range in X. unfold lenz in *. lia.
  - apply Forall_forall. intros u Hu. apply U in Hu. apply in_flat_map in Hu as (t & T1 & T2). unfold surface_triangles in T1. apply in_map_iff in T1 as (t0 & <- & T0).
    pose proof (gl_in _ _ G) as GI. rewrite Forall_forall in GI. specialize (GI t0 T0). pose proof (gl_uv _ _ G) as GU. rewrite Forall_forall in GU.
    destruct t0 as [[x y] z]. cbn [tri_list corners_uv In] in T2, GI. inversion_clear GI as [|? ? G1 GI']. inversion_clear GI' as [|? ? G2 GI]. inversion_clear GI as [|? ? G3 _].
    assert (A : forall v, 0 <= v < lenz (f_uv s0) -> In (at_ (f_uv s0) v) (f_uv s0)).
    { intros v Hv. destruct (nthz_in_range (f_uv s0) v Hv) as [u' Hu']. rewrite (at_some _ _ _ Hu'). exact (nthz_in _ _ _ Hu'). }
    apply GU. destruct T2 as [<-|[<-|[<-|[]]]]; auto.
Qed.
Variables (mb : list LColl) (HMB : forall c, In c mb -> plain (g_name c) /\ incl (g_items c) ids).
Lemma again_ok : lso_ok (with_bounds w mb) (fun _ _ => Some true).
Proof.
  destruct saved_facts as (TI & NU & SU & HH & HP & bs & P & LK). pose proof (again_rows bs P LK) as RW. pose proof (sa_nuv _ _ _ SEEN) as NW.
  pose proof (sa_consistent _ _ _ SEEN) as C'. destruct (sa_surfs _ _ _ SEEN) as (ss & PS & EI & HSS).
  destruct (sa_horizons _ _ _ SEEN) as (hs & PH & HHS).
  assert (INS : forall s, In s (l_surfs w) -> exists h, In h (i_surfs m') /\ f_tris s = h_tris h /\ f_uv s = h_uv h).
  { intros s Hs. apply (Permutation_in _ PS) in Hs. destruct (Forall2_in_r _ _ _ _ HSS Hs) as (h & H1 & H2). eauto. }
  assert (INC : forall c, In c (collections (with_bounds w mb)) -> In c mb \/ exists e, In e (i_horizons m') /\ g_name c = fst (fst e) /\
                  (forall i, In i (g_items c) <-> exists k, nthz ids k = Some i /\ snd (fst e) <= k < snd e)).
  { intros c Hc. unfold collections in Hc. cbn [with_bounds l_horizons l_faults l_mbounds] in Hc. rewrite (sa_faults _ _ _ SEEN) in Hc. cbn [app] in Hc.
    apply in_app_or in Hc as [Hc|Hc]; [right|now left]. apply (Permutation_in _ PH) in Hc. destruct (Forall2_in_r _ _ _ _ HHS Hc) as (e & E1 & E2 & E3). eauto. }
  split; cbn [with_bounds l_title l_uv l_blocks l_surfs].
  - destruct C'. split; cbn [with_bounds l_title l_uv l_blocks l_surfs]; assumption.
  - intros u p q Hp Hq. assert (E : forall p, at_uv (with_bounds w mb) u p -> at_uv w u p) by (intros x X; exact X).
    destruct (again_at u p bs P LK (E _ Hp)) as (p0 & A1 & A2). destruct (again_at u q bs P LK (E _ Hq)) as (q0 & B1 & B2).
    pose proof (lo_colocated m sides O u p0 q0 A1 B1) as EQ. subst q0. eapply reread_same; eauto.
  - clear -RW. induction RW as [|a b l l' [H _] _ IH]; constructor; assumption.
  - pose proof (nb_others_le (l_uv w) (l_uv m) (Forall2_impl' _ _ _ _ (fun a b H => proj2 H) RW)) as LE. pose proof (lo_fits m sides O) as FI. lia.
  - pose proof (lo_some m sides O) as NE. intros E. rewrite E in P. apply Permutation_nil in P. subst bs. inversion LK as [E'|]. congruence.
  - apply Forall_forall. intros b' Hb'. apply (Permutation_in _ P) in Hb'. destruct (Forall2_in_r _ _ _ _ LK Hb') as (b & Hb & L).
    pose proof (lo_blocks m sides O) as G. rewrite Forall_forall in G. destruct (G b Hb) as [G1 _]. split; [|apply Forall_forall; intros t' Ht'; now apply (linked_corner b)].
    destruct L as (_ & _ & _ & o & _ & _ & _ & _ & T). intros E. rewrite E in T. inversion T as [E'|]. congruence.
  - apply Forall_forall. intros b' Hb'. apply (Permutation_in _ P) in Hb'. destruct (Forall2_in_r _ _ _ _ LK Hb') as (b & Hb & (E & _)).
    rewrite E. pose proof (lo_names m sides O) as G. rewrite Forall_forall in G. now apply G.
  - apply (Permutation_NoDup (l := map k_name bs)); [apply Permutation_map, Permutation_sym, P|].
    replace (map k_name bs) with (map k_name (l_blocks m)); [exact (lo_distinct m sides O)|].
    clear -LK. induction LK as [|b b' l l' (E & _) _ IH]; cbn [map]; [reflexivity|]. now rewrite E, IH.
  - apply Forall_forall. intros s Hs. destruct (INS s Hs) as (h & H1 & H2 & H3). destruct (Forall2_in_r _ _ _ _ SU H1) as (i & _ & s0 & S0 & name & SF).
    pose proof (again_surf 0 h s0 name SF S0) as [G1 G2 G3]. cbn [f_tris f_uv] in *. rewrite NW, NU. split; rewrite ?H2, ?H3; assumption.
  - apply Forall_forall. intros c Hc. apply Forall_forall. intros i Hi. apply surf_ids. destruct (INC c Hc) as [H|(e & E1 & _ & E3)].
    + exact (proj2 (HMB c H) i Hi).
    + destruct (proj1 (E3 i) Hi) as (k & K & _). exact (nthz_in _ _ _ K).
  - apply Forall_forall. intros c Hc. destruct (INC c Hc) as [H|(e & E1 & -> & _)]; [exact (proj1 (HMB c H))|exact (HP e E1)].
  - apply Forall_forall. intros b' Hb'. apply (Permutation_in _ P) in Hb'. destruct (Forall2_in_r _ _ _ _ LK Hb') as (b & Hb & (_ & NE & BI & _)).
    destruct (k_bounds b') as [|s r] eqn:EB; [destruct NE as [i []]|]. exists s, r, true. split; [reflexivity|]. split; [reflexivity|].
    destruct (BI s (or_introl eq_refl)) as [k Hk].
    destruct (nthz_in_range (i_surfs m') k) as [h Hh].
    { apply nthz_range in Hk. apply F2_len in HSS. unfold lenz in *. rewrite <- EI, map_length in Hk. lia. }
    destruct (HH k h Hh) as (e & E1 & E2). destruct (Forall2_in_l _ _ _ _ HHS E1) as (c & C1 & _ & C3).
    apply in_flat_map. exists c. split; [|apply C3; exists k; auto]. unfold collections. cbn [with_bounds l_horizons]. apply in_or_app. left.
    exact (Permutation_in _ (Permutation_sym PH) C1).
  - intros t Ht. rewrite (sa_title _ _ _ SEEN), TI in Ht. destruct (l_title m) as [t0|] eqn:E; [|discriminate Ht]. cbn [option_map] in Ht. injection Ht as <-.
    apply normalise_line. exact (lo_title m sides O t0 E).
Qed.
End Again.

(** A saved and loaded model to which model boundaries are added is saved again as soon as the sides are found; what is loaded from the second file is what was loaded
    from the first one: unique vertices, blocks (with their coordinates printed and read once more), surfaces. *)
Theorem C145_saved_again {F} (m : LModel F) sides internals text (m' : LsoIn F) ids w mb g :
  num_ok F -> lso_ok m sides -> saved_apart m -> conforming m internals ->
  (forall s, In s (l_surfs m) -> f_tris s <> [] /\ all_different (surface_triangles s)) ->
  (forall b i, In b (l_blocks m) -> In i (internals (k_id b)) -> ~ In i (k_bounds b)) ->
  (* every vertex of a block is the corner of a tetrahedron *)
  (forall b v, In b (l_blocks m) -> 0 <= v < lenz (k_points b) -> In v (flat_map quad_list (k_tets b))) ->
  write_lso m sides = Ok text -> read_lso F text = Ok m' -> seen_as m' ids w ->
  (forall c, In c mb -> plain (g_name c) /\ incl (g_items c) ids) -> lso_sides_found (with_bounds w mb) g ->
  exists text2 (m2 : LsoIn F), export_lso (with_bounds w mb) g = Ok text2 /\ read_lso F text2 = Ok m2 /\
    i_title m2 = option_map normalise (i_title m') /\ i_nuv m2 = i_nuv m' /\
    (exists rs, Permutation (i_blocks m') rs /\ Forall2 (fun r r2 => block_like (as_block r) r2) rs (i_blocks m2)) /\
    (exists ids2, Permutation ids ids2 /\
       Forall2 (fun i h2 => exists k h, nthz ids k = Some i /\ nthz (i_surfs m') k = Some h /\ tris_uv h2 = tris_uv h) ids2 (i_surfs m2)).
Proof.
  intros HF O SA CF HT HI HU EW ER SEEN HMB SF.
  pose proof (again_ok HF m sides internals O SA CF HT HI HU text m' EW ER ids w SEEN mb HMB) as OK2.
  destruct (C143_reloaded (with_bounds w mb) g HF (ex_intro _ _ OK2) SF) as (text2 & m2 & E1 & E2 & E3 & E4 & E5 & E6).
  exists text2, m2. split; [exact E1|]. split; [exact E2|]. cbn [with_bounds l_title l_uv l_blocks] in E3, E4, E5.
  split; [rewrite E3, (sa_title _ _ _ SEEN); reflexivity|]. split; [rewrite E4; exact (sa_nuv _ _ _ SEEN)|]. split.
  - destruct (sa_blocks _ _ _ SEEN) as (bs & P & HB).
    assert (X : exists rs, Permutation (i_blocks m') rs /\ Forall2 (fun r b => k_name b = r_name r /\ k_points b = r_points r /\ k_tets b = r_tets r /\ k_uv b = r_uv r) rs (l_blocks w)).
    { clear -P HB. apply Permutation_sym in P. revert P. assert (G : Forall2 (fun r b => k_name b = r_name r /\ k_points b = r_points r /\ k_tets b = r_tets r /\ k_uv b = r_uv r) (i_blocks m') bs).
      { revert HB. apply Forall2_impl'. intros r b (A & B & C & D & _). auto. }
      clear HB. intros P. revert G. generalize (i_blocks m'). induction P as [|b l l' P IH|b c l|l l' l'' P IH P' IH']; intros R G.
      - inversion_clear G. exists []. split; constructor.
      - inversion_clear G as [|r ? R' ? G1 G2]. destruct (IH R' G2) as (rs & A & B). exists (r :: rs). split; [now constructor|now constructor].
      - inversion_clear G as [|r ? R' ? G1 G2]. inversion_clear G2 as [|r' ? R'' ? G3 G4]. exists (r' :: r :: R''). split; [constructor|]. constructor; [assumption|]. now constructor.
      - destruct (IH R G) as (rs & A & B). destruct (IH' rs B) as (rs' & A' & B'). exists rs'. split; [now transitivity rs|exact B']. }
    destruct X as (rs & PR & HR). exists rs. split; [exact PR|]. clear -HR E5. revert HR. generalize (l_blocks w), (i_blocks m2), E5. clear E5. intros B R2 E5.
    revert rs. induction E5 as [|b r2 B R2 [H _] _ IH]; intros rs HR; inversion_clear HR as [|r ? rs' ? (A1 & A2 & A3 & A4) HR']; constructor; [|now apply IH].
    unfold block_like in *. cbn [as_block k_name k_points k_tets k_uv]. rewrite A1, A2, A3, A4 in H. exact H.
  - exists (all_ids (with_bounds w mb)). destruct (sa_surfs _ _ _ SEEN) as (ss & PS & EI & HSS).
    assert (ND : NoDup (map f_id (l_surfs w))).
    { apply (Permutation_NoDup (l := map f_id ss)); [apply Permutation_map, Permutation_sym, PS|]. rewrite EI. exact (sa_ids _ _ _ SEEN). }
    destruct (saved_facts HF m sides internals O SA CF HT HI text m' EW ER ids w SEEN) as (_ & _ & _ & HH & _ & _).
    destruct (sa_horizons _ _ _ SEEN) as (hs & PH & HHS).
    split.
    + apply NoDup_Permutation; [exact (sa_ids _ _ _ SEEN)|apply fresh_nodup|]. intros i. unfold all_ids. rewrite fresh_in. split.
      * intros Hi. split; [|intros []]. destruct (in_nthz _ _ Hi) as [k Hk]. destruct (nthz_in_range (i_surfs m') k) as [h Hh].
        { apply nthz_range in Hk. apply F2_len in HSS. unfold lenz in *. rewrite <- EI, map_length in Hk. lia. }
        destruct (HH k h Hh) as (e & H1 & H2). destruct (Forall2_in_l _ _ _ _ HHS H1) as (c & C1 & _ & C3).
        apply in_flat_map. exists c. split; [|apply C3; exists k; auto]. unfold collections. cbn [with_bounds l_horizons]. apply in_or_app. left.
        exact (Permutation_in _ (Permutation_sym PH) C1).
      * intros [Hi _]. apply in_flat_map in Hi as (c & Hc & Hi). pose proof (lo_items _ _ OK2) as IT. rewrite Forall_forall in IT. specialize (IT c Hc).
        rewrite Forall_forall in IT. specialize (IT i Hi). cbn [with_bounds l_surfs] in IT. exact (proj1 (surf_ids m' ids w SEEN i) IT).
    + revert E6. apply Forall2_impl'. intros i h2 (s & name & S1 & _ & S3). apply surface_from_tris in S3. unfold lsurf_of in S1. cbn [with_bounds l_surfs] in S1.
      destruct (find (fun s => f_id s =? i) (l_surfs w)) as [s1|] eqn:FS; [|discriminate S1]. injection S1 as <-. apply find_some in FS as [F1 F2]. apply Z.eqb_eq in F2.
      apply (Permutation_in _ PS), in_nthz in F1 as [k Hk]. destruct (Forall2_nthz _ _ _ (Forall2_swap _ _ _ HSS) k s1 Hk) as (h & Hh & T1 & T2).
      exists k, h. split; [rewrite <- EI, nthz_map, Hk; cbn [option_map]; now rewrite F2|]. split; [exact Hh|]. rewrite S3. unfold surface_triangles, tris_uv. now rewrite T1, T2.
Qed.
Print Assumptions C145_saved_again.

(** ** The tetrahedron of C143, saved and loaded *)
Definition tetra_text : bytes := match write_lso (tetra_lso tetra_boxes) tetra_sides with Ok t => t | _ => [] end.
Definition tetra_loaded : LsoIn ExNum := match read_lso ExNum tetra_text with Ok m' => m' | _ => mkLsoIn None 0 [] [] [] false end.
Definition tetra_ids : list Z := [30; 10; 20; 40].
Definition tetra_again : LModel ExNum :=
  mkLModel (F:=ExNum) (Some (lit "tetra")) [[(7, 0)]; [(7, 1)]; [(7, 2)]; [(7, 3)]]
    [mkLBlock (F:=ExNum) 7 (lit "b7") [(0, 0, 0); (1, 0, 0); (0, 1, 0); (0, 0, 1)] [(0, 1, 2, 3)] [0; 1; 2; 3] [30; 40; 20; 10]]
    [mkLSurfW 30 [(0, 1, 2)] [0; 3; 2]; mkLSurfW 10 [(0, 1, 2)] [0; 2; 1]; mkLSurfW 20 [(0, 1, 2)] [0; 3; 1]; mkLSurfW 40 [(0, 1, 2)] [1; 2; 3]]
    [mkLColl (lit "f") [30]; mkLColl (lit "two") [10; 20]; mkLColl (lit "four") [40]] [] [].
Lemma tetra_text_ok : write_lso (tetra_lso tetra_boxes) tetra_sides = Ok tetra_text /\ read_lso ExNum tetra_text = Ok tetra_loaded.
Proof.
  split; [vm_compute; reflexivity|]. unfold tetra_loaded.
  assert (X : match read_lso ExNum tetra_text with Ok _ => true | _ => false end = true) by (vm_compute; reflexivity).
  destruct (read_lso ExNum tetra_text) as [m'| | |]; [reflexivity|discriminate X..].
Qed.
Lemma Forall2_of_map {A B C} (f : A -> B) (R : B -> C -> Prop) l : forall l', Forall2 R (map f l) l' -> Forall2 (fun x y => R (f x) y) l l'.
Proof. induction l as [|x l IH]; intros l' H; cbn [map] in H; inversion_clear H; constructor; auto. Qed.
Lemma tetra_seen : seen_as tetra_loaded tetra_ids tetra_again.
Proof.
  assert (ES : map (fun h => (h_tris h, h_uv h)) (i_surfs tetra_loaded) = [([(0, 1, 2)], [0; 3; 2]); ([(0, 1, 2)], [0; 2; 1]); ([(0, 1, 2)], [0; 3; 1]); ([(0, 1, 2)], [1; 2; 3])])
    by (vm_compute; reflexivity).
  assert (EH : i_horizons tetra_loaded = [(lit "f", 0, 1); (lit "two", 1, 3); (lit "four", 3, 4)]) by (vm_compute; reflexivity).
  assert (EB : map (fun r : LBlockR ExNum => (r_name r, r_points r, r_tets r, r_uv r, r_bounds r)) (i_blocks tetra_loaded) =
      [(lit "b7", [(0, 0, 0); (1, 0, 0); (0, 1, 0); (0, 0, 1)], [(0, 1, 2, 3)], [0; 1; 2; 3], [0; 1; 2; 3])]) by (vm_compute; reflexivity).
  assert (NT : forall k i, nthz tetra_ids k = Some i -> k = 0 /\ i = 30 \/ k = 1 /\ i = 10 \/ k = 2 /\ i = 20 \/ k = 3 /\ i = 40).
  { intros k i H. pose proof (nthz_range _ _ _ H) as R. unfold lenz in R. cbn in R. assert (k = 0 \/ k = 1 \/ k = 2 \/ k = 3) as [-> | [-> | [-> | ->]]] by lia; injection H as <-; tauto. }
  split.
  - vm_compute. reflexivity.
  - apply consistentb_ok; [cbn; nodup| |reflexivity]. cbn [tetra_again l_uv]. repeat (apply Forall_cons; [nodup|]). constructor.
  - vm_compute. reflexivity.
  - unfold tetra_ids. nodup.
  - exists (l_surfs tetra_again). split; [apply Permutation_refl|]. split; [reflexivity|].
    apply (Forall2_of_map (fun h => (h_tris h, h_uv h)) (fun x s => f_tris s = fst x /\ f_uv s = snd x)). rewrite ES. repeat constructor.
  - exists (l_blocks tetra_again). split; [apply Permutation_refl|].
    apply (Forall2_of_map (fun r : LBlockR ExNum => (r_name r, r_points r, r_tets r, r_uv r, r_bounds r))
      (fun '(n, p, t, u, bd) b => k_name b = n /\ k_points b = p /\ k_tets b = t /\ k_uv b = u /\ (forall i, In i (k_bounds b) <-> exists k, nthz tetra_ids k = Some i /\ In k bd))).
    rewrite EB. constructor; [|constructor]. cbn [k_name k_points k_tets k_uv k_bounds].
    do 4 (split; [reflexivity|]). intros i. split.
    + intros [<-|[<-|[<-|[<-|[]]]]]; [exists 0|exists 3|exists 2|exists 1]; (split; [reflexivity|cbn; tauto]).
    + intros (k & Hk & _). apply NT in Hk. cbn. intuition lia.
  - rewrite EH. exists (l_horizons tetra_again). split; [apply Permutation_refl|]. cbn [l_horizons tetra_again].
    apply Forall2_cons; [|apply Forall2_cons; [|apply Forall2_cons; [|apply Forall2_nil]]]; cbn [g_items g_name fst snd]; (split; [reflexivity|]); intros i; split.
    + intros [<-|[]]. exists 0. split; [reflexivity|lia].
    + intros (k & Hk & R). apply NT in Hk. cbn. intuition lia.
    + intros [<-|[<-|[]]]; [exists 1|exists 2]; (split; [reflexivity|lia]).
    + intros (k & Hk & R). apply NT in Hk. cbn. intuition lia.
    + intros [<-|[]]. exists 3. split; [reflexivity|lia].
    + intros (k & Hk & R). apply NT in Hk. cbn. intuition lia.
  - reflexivity.
  - reflexivity.
Qed.
Example C145_case : 
  (* the loaded tetrahedron is accepted by is_saveable, and refused by the export *)
  lso_saveable tetra_again = true /\
  (* with the model boundaries given back it is saved *)
  num_ok ExNum /\ lso_ok (tetra_lso tetra_boxes) tetra_sides /\ saved_apart (tetra_lso tetra_boxes) /\ conforming (tetra_lso tetra_boxes) (fun _ => []) /\
  (forall s, In s (l_surfs (tetra_lso tetra_boxes)) -> f_tris s <> [] /\ all_different (surface_triangles s)) /\
  (forall b v, In b (l_blocks (tetra_lso tetra_boxes)) -> 0 <= v < lenz (k_points b) -> In v (flat_map quad_list (k_tets b))) /\
  seen_as tetra_loaded tetra_ids tetra_again /\
  (forall c, In c tetra_boxes -> plain (g_name c) /\ incl (g_items c) tetra_ids) /\ lso_sides_found (with_bounds tetra_again tetra_boxes) tetra_shape.
Proof.
  split; [reflexivity|]. split; [exact ExNum_ok|]. split; [exact tetra_lso_ok|]. split; [apply saved_apartb_ok; vm_compute; reflexivity|]. split.
  { assert (H : forallb (fun b => forallb (fun s => forallb (fun t => facets_at (block_facets b) t =? (if existsb (Z.eqb (f_id s)) (k_bounds b) then 1 else 0))
      (surface_triangles s)) (l_surfs (tetra_lso tetra_boxes))) (l_blocks (tetra_lso tetra_boxes)) = true) by (vm_compute; reflexivity).
    intros b s Hb Hs t Ht. rewrite forallb_forall in H. specialize (H b Hb). rewrite forallb_forall in H. specialize (H s Hs). rewrite forallb_forall in H.
    specialize (H t Ht). cbn [existsb]. now apply Z.eqb_eq. }
  split. { intros s Hs. split; [|apply all_differentb_ok]; cbn [tetra_lso l_surfs map In] in Hs; repeat (destruct Hs as [<-|Hs]; [discriminate || reflexivity|]); destruct Hs. }
  split. { intros b v [<-|[]] R. cbn in R |- *. lia. }
  split; [exact tetra_seen|]. split.
  { intros c Hc. cbn [tetra_boxes In] in Hc. repeat (destruct Hc as [<-|Hc]; [split; [apply plainb_ok; reflexivity|intros i Hi; cbn in Hi |- *; tauto]|]). destruct Hc. }
  exists [(10, true); (20, false); (30, true); (40, true)], [(7, 30, false); (7, 40, false); (7, 20, true); (7, 10, false)]. exact ex_sides.
Qed.
(** Finding: a model that was saved, loaded, accepted again by is_saveable, and that no geometry lets be saved *)
Theorem C145_saved_again_refuted : exists (m : LModel ExNum) sides text m' ids w,
  lso_ok m sides /\ write_lso m sides = Ok text /\ read_lso ExNum text = Ok m' /\ seen_as m' ids w /\ lso_saveable w = true /\ forall g, export_lso w g = Throw ExData.
Proof.
  exists (tetra_lso tetra_boxes), tetra_sides, tetra_text, tetra_loaded, tetra_ids, tetra_again. destruct tetra_text_ok as [E1 E2].
  split; [exact tetra_lso_ok|]. split; [exact E1|]. split; [exact E2|]. split; [exact tetra_seen|]. split; [reflexivity|].
  intros g. exact (C145_loaded_not_saved _ _ _ _ g E2 tetra_seen).
Qed.
Print Assumptions C145_saved_again_refuted.
