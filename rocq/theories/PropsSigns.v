(** * Properties C42, C43, C69: sides of surfaces (model/internal/gocad_common.cpp). *)
From Coq Require Import ZArith List Bool QArith Qminmax Lia Lqa Permutation.
From Verif Require Import Base SignsModel.
Import ListNotations.
Local Open Scope Z_scope.

(** ** Specification *)

(** The table says something about two surfaces. *)
Definition paired (tab : PairedSigns) (a b : Z) : option bool :=
  find_pair tab (Z.min a b) (Z.max a b).

(** An assignment of sides satisfies all pairs of the surfaces [ids]. *)
Definition consistent (tab : PairedSigns) (ids : list Z) (side : Z -> bool) : Prop :=
  forall a b same, In a ids -> In b ids -> paired tab a b = Some same ->
    (side a = side b <-> same = true).

(** The surface at position [j] of the list is connected to the one at position [i]
    through a chain of pairs known by the table. *)
Inductive chain (tab : PairedSigns) (ids : list Z) (i : nat) : nat -> Prop :=
| chain_refl : chain tab ids i i
| chain_step j k a b : chain tab ids i j -> nth_error ids j = Some a -> nth_error ids k = Some b ->
    paired tab a b <> None -> chain tab ids i k.

(** All surfaces are connected. *)
Definition connected (tab : PairedSigns) (ids : list Z) : Prop :=
  forall i j, (i < List.length ids)%nat -> (j < List.length ids)%nat -> chain tab ids i j.

Lemma paired_sym tab a b : paired tab a b = paired tab b a.
Proof. unfold paired. now rewrite Z.min_comm, Z.max_comm. Qed.

Lemma chain_trans tab ids i j k : chain tab ids i j -> chain tab ids j k -> chain tab ids i k.
Proof. intros H1 H2. induction H2; eauto using chain. Qed.

Lemma chain_sym tab ids i j : chain tab ids i j -> chain tab ids j i.
Proof.
  induction 1 as [|j k a b H IH Ha Hb Hp]; [constructor|].
  apply chain_trans with j; auto.
  eapply chain_step; [constructor|exact Hb|exact Ha|]. now rewrite paired_sym.
Qed.

Lemma connected_from tab ids : connected tab ids <-> (forall j, (j < List.length ids)%nat -> chain tab ids 0 j).
Proof.
  split; intros H.
  - intros j Hj. apply H; lia.
  - intros i j Hi Hj. eapply chain_trans; [apply chain_sym; apply H; exact Hi|apply H; exact Hj].
Qed.

(** ** The propagation *)
Definition det (st : Bfs) (i : nat) : Prop := nth i (determined st) false = true.

Fixpoint count_false (l : list bool) : nat :=
  match l with [] => 0 | b :: t => (if b then 0 else 1) + count_false t end.

Lemma count_upd l i : (i < List.length l)%nat -> nth i l false = false ->
  S (count_false (upd l i true)) = count_false l.
Proof.
  revert i; induction l as [|b t IH]; intros [|i] H E; simpl in *; try lia.
  - now subst b.
  - rewrite <- (IH i) by (auto; lia). lia.
Qed.

Lemma nth_upd {A} (l : list A) i j a d : (i < List.length l)%nat ->
  nth j (upd l i a) d = if Nat.eqb i j then a else nth j l d.
Proof.
  intros H. destruct (Nat.eqb_spec i j) as [->|N].
  - apply nth_error_nth with (d := d). rewrite nth_error_upd, Nat.eqb_refl.
    now rewrite (proj2 (Nat.ltb_lt _ _) H).
  - destruct (nth_error l j) eqn:E.
    + rewrite (nth_error_nth l j d E). apply nth_error_nth with (d := d).
      rewrite nth_error_upd. now rewrite (proj2 (Nat.eqb_neq _ _) N).
    + rewrite (nth_overflow l) by (now apply nth_error_None).
      apply nth_overflow. rewrite upd_length. now apply nth_error_None.
Qed.

Section Propagation.
Variables (ids : list Z) (tab : PairedSigns).
Let n := List.length ids.
Let idn i := nth i ids 0.

Lemma nth_idn i : (i < n)%nat -> nth_error ids i = Some (idn i).
Proof. intros H. now apply nth_error_nth'. Qed.

Record Inv (st : Bfs) : Prop := {
  inv_signs : List.length (signs st) = n;
  inv_det : List.length (determined st) = n;
  inv_reach : forall i, det st i -> chain tab ids 0 i;
  inv_queue : forall i, In i (to_process st) -> det st i /\ (i < n)%nat;
  inv_sign : forall side, consistent tab ids side -> forall i, (i < n)%nat -> det st i ->
      nth i (signs st) true = Bool.eqb (side (idn i)) (side (idn 0)) }.

Definition measure (st : Bfs) : nat := count_false (determined st) + List.length (to_process st).

Lemma det_lt st i : Inv st -> det st i -> (i < n)%nat.
Proof.
  intros I H. unfold det in H. destruct (Nat.lt_ge_cases i n) as [|G]; auto.
  rewrite nth_overflow in H by (rewrite (inv_det _ I); exact G). discriminate.
Qed.

Lemma visit_inv st d s : Inv st -> det st d -> (s < n)%nat ->
  let st' := visit ids tab d st s in
  Inv st' /\ measure st' = measure st /\ (forall i, det st i -> det st' i) /\
  (paired tab (idn d) (idn s) <> None -> det st' s) /\
  (forall i, In i (to_process st) -> In i (to_process st')) /\
  (forall i, det st' i -> det st i \/ In i (to_process st')).
Proof.
  intros I Hd Hs. cbn zeta. unfold visit. fold (idn d) (idn s).
  pose proof (det_lt _ _ I Hd) as Ld.
  destruct (nth s (determined st) false) eqn:Es.
  { split; [exact I|]. repeat split; auto. }
  change (find_pair tab (Z.min (idn d) (idn s)) (Z.max (idn d) (idn s))) with (paired tab (idn d) (idn s)).
  destruct (paired tab (idn d) (idn s)) as [b|] eqn:Ep.
  2: { split; [exact I|]. repeat split; auto. congruence. }
  assert (Ls : (s < List.length (determined st))%nat) by (rewrite (inv_det _ I); exact Hs).
  assert (Lg : (s < List.length (signs st))%nat) by (rewrite (inv_signs _ I); exact Hs).
  assert (D : forall i, nth i (upd (determined st) s true) false
                        = if Nat.eqb s i then true else nth i (determined st) false)
    by (intros; now apply nth_upd).
  split; [|split; [|split; [|split; [|split]]]].
  - constructor; cbn [signs determined to_process].
    + rewrite upd_length. apply (inv_signs _ I).
    + rewrite upd_length. apply (inv_det _ I).
    + intros i. unfold det; cbn [determined]. rewrite D.
      destruct (Nat.eqb_spec s i) as [<-|N]; intros H.
      * eapply chain_step; [apply (inv_reach _ I); exact Hd|apply nth_idn; exact Ld|apply nth_idn; exact Hs|congruence].
      * now apply (inv_reach _ I).
    + intros i H. unfold det; cbn [determined]. rewrite D. apply in_app_iff in H as [H|[<-|[]]].
      * apply (inv_queue _ I) in H as [H1 H2]. unfold det in H1. rewrite H1. now destruct (Nat.eqb s i).
      * rewrite Nat.eqb_refl. auto.
    + intros side C i Hi. unfold det; cbn [determined]. rewrite D, (nth_upd (signs st)) by exact Lg.
      destruct (Nat.eqb_spec s i) as [<-|N]; intros H.
      * rewrite (inv_sign _ I side C d Ld Hd).
        assert (Cs : side (idn d) = side (idn s) <-> b = true).
        { apply C with (3 := Ep); eapply nth_error_In; apply nth_idn; auto. }
        destruct b, (side (idn d)), (side (idn s)), (side (idn 0)); simpl; intuition congruence.
      * now apply (inv_sign _ I).
  - unfold measure; cbn [determined to_process]. rewrite app_length; simpl.
    pose proof (count_upd (determined st) s Ls Es). lia.
  - intros i. unfold det; cbn [determined]. rewrite D. intros ->. now destruct (Nat.eqb s i).
  - intros _. unfold det; cbn [determined]. now rewrite D, Nat.eqb_refl.
  - intros i H. cbn [to_process]. apply in_app_iff; auto.
  - intros i. unfold det; cbn [determined to_process]. rewrite D.
    destruct (Nat.eqb_spec s i) as [<-|N]; intros H; [right; apply in_app_iff; simpl; auto|auto].
Qed.

Lemma visits_inv d l : (forall s, In s l -> (s < n)%nat) -> forall st, Inv st -> det st d ->
  let st' := fold_left (visit ids tab d) l st in
  Inv st' /\ measure st' = measure st /\ (forall i, det st i -> det st' i) /\
  (forall s, In s l -> paired tab (idn d) (idn s) <> None -> det st' s) /\
  (forall i, In i (to_process st) -> In i (to_process st')) /\
  (forall i, det st' i -> det st i \/ In i (to_process st')).
Proof.
  induction l as [|s l IH]; intros Hl st I Hd; cbn [fold_left]; cbn zeta.
  { split; [exact I|]. repeat split; auto. intros ? []. }
  destruct (visit_inv st d s I Hd (Hl s (or_introl eq_refl))) as (I1 & M1 & D1 & P1 & Q1 & R1).
  specialize (IH (fun x H => Hl x (or_intror H)) _ I1 (D1 _ Hd)).
  cbn zeta in IH. destruct IH as (I2 & M2 & D2 & P2 & Q2 & R2).
  split; [exact I2|]. split; [congruence|]. split; [auto|]. split; [|split; [auto|]].
  - intros x [<-|H] Hp; auto.
  - intros i H. apply R2 in H as [H|H]; [|auto]. apply R1 in H as [H|H]; auto.
Qed.

(** Every determined surface waits in the queue or has only determined neighbours. *)
Definition closed_or_queued (st : Bfs) : Prop :=
  forall i, det st i -> In i (to_process st) \/
    forall j, (j < n)%nat -> paired tab (idn i) (idn j) <> None -> det st j.

Lemma propagate_ok fuel : forall st, Inv st -> closed_or_queued st -> det st 0 ->
  (measure st <= fuel)%nat ->
  exists st', propagate fuel ids tab st = Ok st' /\ Inv st' /\ det st' 0 /\
    (forall i j, det st' i -> (j < n)%nat -> paired tab (idn i) (idn j) <> None -> det st' j).
Proof.
  induction fuel as [|fuel IH]; intros st I C H0 M.
  - unfold measure in M. destruct (to_process st) as [|d q] eqn:E; [|simpl in M; lia].
    exists st. simpl. rewrite E. split; [reflexivity|]. split; [exact I|]. split; [exact H0|].
    intros i j Hi. destruct (C i Hi) as [H|H]; [rewrite E in H; destruct H|apply H].
  - simpl. destruct (to_process st) as [|d q] eqn:E.
    { exists st. split; [reflexivity|]. split; [exact I|]. split; [exact H0|].
      intros i j Hi. destruct (C i Hi) as [H|H]; [rewrite E in H; destruct H|apply H]. }
    set (st0 := mkBfs (signs st) (determined st) q).
    assert (I0 : Inv st0).
    { constructor; try apply I. intros i H. apply (inv_queue _ I). rewrite E. now right. }
    assert (Hd : det st0 d) by (apply (inv_queue _ I); rewrite E; now left).
    destruct (visits_inv d (seq 0 (List.length ids))) with (st := st0)
      as (I1 & M1 & D1 & P1 & Q1 & R1); auto.
    { intros s H. apply in_seq in H. unfold n. lia. }
    apply IH; [exact I1| |apply D1; exact H0|].
    + intros i Hi. destruct (R1 i Hi) as [H|H]; [|auto].
      destruct (Nat.eq_dec i d) as [->|Nd].
      * right. intros j Hj Hp. apply P1; auto. apply in_seq. unfold n in Hj. lia.
      * destruct (C i H) as [H'|H'].
        -- rewrite E in H'. destruct H' as [<-|H']; [congruence|]. left. apply Q1. exact H'.
        -- right. intros j Hj Hp. apply D1. now apply H'.
    + rewrite M1. unfold measure in *; cbn [determined to_process st0]. rewrite E in M; simpl in M. lia.
Qed.
End Propagation.

Lemma count_repeat k : count_false (repeat false k) = k.
Proof. induction k; simpl; auto. Qed.

Lemma nth_repeat_any {A} (a : A) k i : nth i (repeat a k) a = a.
Proof. revert i; induction k; destruct i; simpl; auto. Qed.

(** Full behaviour of the propagation on at least two surfaces. *)
Lemma relative_signs_spec ids tab : (2 <= List.length ids)%nat ->
  exists st, propagate (List.length ids) ids tab
    (mkBfs (repeat true (List.length ids)) (upd (repeat false (List.length ids)) 0 true) [0%nat]) = Ok st
  /\ Inv ids tab st
  /\ (forall i, (i < List.length ids)%nat -> det st i <-> chain tab ids 0 i).
Proof.
  intros L. set (n := List.length ids).
  set (st0 := mkBfs (repeat true n) (upd (repeat false n) 0 true) [0%nat]).
  assert (L0 : (0 < List.length (repeat false n))%nat) by (rewrite repeat_length; unfold n; lia).
  assert (D0 : forall i, det st0 i -> i = 0%nat).
  { intros i. unfold det, st0; cbn [determined]. rewrite nth_upd by exact L0.
    destruct (Nat.eqb_spec 0 i); [congruence|]. rewrite nth_repeat_any. discriminate. }
  assert (D00 : det st0 0).
  { unfold det, st0; cbn [determined]. now rewrite nth_upd by exact L0. }
  destruct (propagate_ok ids tab n st0) as (st & E & I & H0 & C).
  - constructor; cbn [st0 signs determined to_process].
    + apply repeat_length.
    + now rewrite upd_length, repeat_length.
    + intros i H. apply D0 in H as ->. constructor.
    + intros i [<-|[]]. split; [exact D00|]. lia.
    + intros side _ i _ H. apply D0 in H as ->. rewrite nth_repeat_any.
      now destruct (side (nth 0 ids 0)).
  - intros i H. apply D0 in H as ->. left. simpl. auto.
  - exact D00.
  - unfold measure, st0; cbn [determined to_process].
    pose proof (count_upd (repeat false n) 0 L0 (nth_repeat_any _ _ _)) as K.
    rewrite count_repeat in K. simpl. lia.
  - exists st. split; [exact E|]. split; [exact I|]. intros i Hi. split; [apply (inv_reach _ _ _ I)|].
    intros Hc. clear Hi. induction Hc as [|j k a b H IH Ha Hb Hp]; [exact H0|].
    assert (Lk : (k < List.length ids)%nat) by (apply nth_error_Some; congruence).
    apply C with j; auto.
    rewrite (nth_error_nth _ _ _ Ha), (nth_error_nth _ _ _ Hb). exact Hp.
Qed.

Lemma det_all st ids tab : Inv ids tab st ->
  forallb (fun b => b) (determined st) = true <-> forall i, (i < List.length ids)%nat -> det st i.
Proof.
  intros I. rewrite forallb_forall. split.
  - intros H i Hi. apply H. apply nth_In. rewrite (inv_det _ _ _ I). exact Hi.
  - intros H b Hb. apply (In_nth _ _ false) in Hb as (i & Hi & <-).
    apply H. rewrite (inv_det _ _ _ I) in Hi. exact Hi.
Qed.

(** ** C42 *)

(** Connected surfaces: the computation succeeds, one sign per surface. *)
Theorem C42_connected_succeeds ids tab : ids <> [] -> connected tab ids ->
  exists rs, determine_relative_signs ids tab = Ok rs /\ List.length rs = List.length ids.
Proof.
  intros N C. unfold determine_relative_signs.
  destruct (Nat.eqb_spec (List.length ids) 1) as [E|E1].
  { exists [true]. rewrite E. auto. }
  destruct (Nat.eqb_spec (List.length ids) 0) as [E|E0].
  { destruct ids; [congruence|discriminate]. }
  destruct (relative_signs_spec ids tab) as (st & -> & I & D); [lia|]. simpl.
  rewrite (proj2 (det_all st ids tab I)).
  - simpl. exists (signs st). split; [reflexivity|apply I].
  - intros i Hi. apply D; auto. apply C; lia.
Qed.
Print Assumptions C42_connected_succeeds.

(** Surfaces that are not connected: the export throws. *)
Theorem C42_disconnected_throws ids tab : ids <> [] -> ~ connected tab ids ->
  determine_relative_signs ids tab = Throw ExData.
Proof.
  intros N C. unfold determine_relative_signs.
  destruct (Nat.eqb_spec (List.length ids) 1) as [E|E1].
  { exfalso. apply C. intros i j Hi Hj. replace j with i by lia. constructor. }
  destruct (Nat.eqb_spec (List.length ids) 0) as [E|E0].
  { destruct ids; [congruence|discriminate]. }
  destruct (relative_signs_spec ids tab) as (st & -> & I & D); [lia|]. simpl.
  destruct (forallb _ _) eqn:F; [|reflexivity].
  exfalso. apply C. apply connected_from. intros j Hj. apply D; auto.
  now apply (proj1 (det_all st ids tab I) F).
Qed.
Print Assumptions C42_disconnected_throws.

(** Whatever the table, the propagation terminates and has defined behaviour on a
    non-empty list. *)
Theorem C42_terminates ids tab : ids <> [] ->
  exists r, determine_relative_signs ids tab = r /\ (r = Throw ExData \/ exists rs, r = Ok rs).
Proof.
  intros N. eexists; split; [reflexivity|]. unfold determine_relative_signs.
  destruct (Nat.eqb_spec (List.length ids) 1) as [E|E1]; [eauto|].
  destruct (Nat.eqb_spec (List.length ids) 0) as [E|E0].
  { destruct ids; [congruence|discriminate]. }
  destruct (relative_signs_spec ids tab) as (st & -> & I & D); [lia|]. simpl.
  destruct (forallb _ _); simpl; eauto.
Qed.
Print Assumptions C42_terminates.

(** The computed sides are the consistent assignment or its global inverse. *)
Theorem C42_unique_up_to_inverse ids tab side rs :
  consistent tab ids side -> determine_relative_signs ids tab = Ok rs ->
  rs = map side ids \/ rs = map (fun a => negb (side a)) ids.
Proof.
  intros C H. unfold determine_relative_signs in H.
  destruct (Nat.eqb_spec (List.length ids) 1) as [E|E1].
  { destruct ids as [|a [|b ids]]; try discriminate. injection H as <-.
    simpl. destruct (side a); auto. }
  destruct (Nat.eqb_spec (List.length ids) 0) as [E|E0]; [discriminate|].
  destruct (relative_signs_spec ids tab) as (st & E & I & D); [lia|].
  rewrite E in H. simpl in H. destruct (forallb _ _) eqn:F; [|discriminate].
  simpl in H. injection H as <-.
  pose proof (proj1 (det_all st ids tab I) F) as A.
  assert (S : forall i, (i < List.length ids)%nat ->
     nth i (signs st) true = Bool.eqb (side (nth i ids 0)) (side (nth 0 ids 0))).
  { intros i Hi. apply (inv_sign _ _ _ I side C i Hi). now apply A. }
  assert (X : signs st = map (fun a => Bool.eqb (side a) (side (nth 0 ids 0))) ids).
  { apply nth_ext with (d := true) (d' := Bool.eqb (side 0) (side (nth 0 ids 0))).
    - rewrite map_length. apply I.
    - intros i Hi. rewrite (inv_signs _ _ _ I) in Hi. rewrite (S i Hi).
      now rewrite (map_nth (fun a => Bool.eqb (side a) (side (nth 0 ids 0)))). }
  rewrite X. destruct (side (nth 0 ids 0)).
  - left. apply map_ext. intros a. now destruct (side a).
  - right. apply map_ext. intros a. now destruct (side a).
Qed.
Print Assumptions C42_unique_up_to_inverse.

(** An empty list (a block without boundary surface, or empty model boundaries) is
    undefined behaviour: the first cell of an empty array is written. *)
Theorem C42_no_surface_refuted : exists ids, forall tab, determine_relative_signs ids tab = UB.
Proof. exists []. reflexivity. Qed.
Print Assumptions C42_no_surface_refuted.

(** ** The pairs computed from the lines *)

(** Surface [s] borders the first edge of line [l] on one side only, and runs along it in
    the same direction ([d = true]) or backwards. *)
Definition runs_along (edge_from : Z -> Z -> Z -> bool) (l : LineView) (s : Z) (d : bool) : Prop :=
  exists c0 c1, In c0 (cmvs0 l) /\ In c1 (cmvs1 l) /\
    is_surface c0 = true /\ is_surface c1 = true /\ cid c0 = s /\ cid c1 = s /\
    edge_from s (vertex c0) (vertex c1) = d /\ edge_from s (vertex c1) (vertex c0) = negb d.

(** The sides form an orientation: two surfaces meeting at a line have the same side
    exactly when they run along the line in opposite directions. *)
Definition orientation (edge_from : Z -> Z -> Z -> bool) (lines : list LineView) (side : Z -> bool) : Prop :=
  forall l a b da db, In l lines -> a <> b ->
    runs_along edge_from l a da -> runs_along edge_from l b db ->
    (side a = side b <-> da <> db).

Lemma find_id_in {V} (m : list (Z * V)) a v : find_id m a = Some v -> In (a, v) m.
Proof.
  unfold find_id. destruct (find _ m) as [[k w]|] eqn:E; simpl; intros H; [|discriminate].
  apply find_some in E as [E1 E2]. simpl in E2. apply Z.eqb_eq in E2. congruence.
Qed.
Lemma find_id_none {V} (m : list (Z * V)) a : find_id m a = None <-> ~ In a (map fst m).
Proof.
  unfold find_id. induction m as [|[k w] m IH]; simpl; [tauto|].
  destruct (Z.eqb_spec k a); simpl; [split; [discriminate|intros []; auto]|].
  rewrite IH. intuition.
Qed.
Lemma emplace_id_in {V} (m : list (Z * V)) a v e : In e (emplace_id m a v) -> In e m \/ e = (a, v).
Proof.
  unfold emplace_id. destruct (find_id m a); [auto|].
  rewrite in_app_iff. simpl. intuition.
Qed.
Lemma emplace_id_incl {V} (m : list (Z * V)) a v e : In e m -> In e (emplace_id m a v).
Proof. unfold emplace_id. destruct (find_id m a); [auto|]. rewrite in_app_iff; auto. Qed.
Lemma emplace_id_key {V} (m : list (Z * V)) a v : In a (map fst (emplace_id m a v)).
Proof.
  unfold emplace_id. destruct (find_id m a) eqn:E.
  - apply find_id_in in E. now apply (in_map fst) in E.
  - rewrite map_app, in_app_iff. simpl. auto.
Qed.

Lemma find_pair_in {V} (m : list (Z * Z * V)) a b v : find_pair m a b = Some v -> In (a, b, v) m.
Proof.
  unfold find_pair. destruct (find _ m) as [[[k l] w]|] eqn:E; simpl; intros H; [|discriminate].
  apply find_some in E as [E1 E2]. simpl in E2. apply andb_true_iff in E2 as [E2 E3].
  apply Z.eqb_eq in E2. apply Z.eqb_eq in E3. congruence.
Qed.
Lemma find_pair_none {V} (m : list (Z * Z * V)) a b : find_pair m a b = None <-> ~ In (a, b) (map fst m).
Proof.
  unfold find_pair. induction m as [|[[k l] w] m IH]; simpl; [tauto|].
  destruct (Z.eqb_spec k a) as [->|N]; simpl.
  - destruct (Z.eqb_spec l b) as [->|N']; simpl; [split; [discriminate|intros []; auto]|].
    rewrite IH. split; [intros H [G|G]; [congruence|auto]|auto].
  - rewrite IH. split; [intros H [G|G]; [congruence|auto]|auto].
Qed.
Lemma emplace_pair_in {V} (m : list (Z * Z * V)) a b v e :
  In e (emplace_pair m a b v) -> In e m \/ e = (a, b, v).
Proof.
  unfold emplace_pair. destruct (find_pair m a b); [auto|].
  rewrite in_app_iff. simpl. intuition.
Qed.
Lemma emplace_pair_incl {V} (m : list (Z * Z * V)) a b v e : In e m -> In e (emplace_pair m a b v).
Proof. unfold emplace_pair. destruct (find_pair m a b); [auto|]. rewrite in_app_iff; auto. Qed.
Lemma emplace_pair_key {V} (m : list (Z * Z * V)) a b v : In (a, b) (map fst (emplace_pair m a b v)).
Proof.
  unfold emplace_pair. destruct (find_pair m a b) eqn:E.
  - apply find_pair_in in E. now apply (in_map fst) in E.
  - rewrite map_app, in_app_iff. simpl. auto.
Qed.

(** Generic facts about folds that only add elements to a list. *)
Lemma fold_grow {A E} (f : list E -> A -> list E) (P : E -> Prop) l :
  (forall m a e, In a l -> In e (f m a) -> In e m \/ P e) ->
  forall m e, In e (fold_left f l m) -> In e m \/ P e.
Proof.
  induction l as [|a l IH]; intros H m e He; simpl in He; [auto|].
  apply IH in He as [He|He]; auto.
  - apply H in He; simpl; auto.
  - intros m' a' e' Ha. apply H. simpl; auto.
Qed.
Lemma fold_incl {A E} (f : list E -> A -> list E) l :
  (forall m a e, In e m -> In e (f m a)) -> forall m e, In e m -> In e (fold_left f l m).
Proof. intros H. induction l as [|a l IH]; intros m e He; simpl; auto. Qed.
Lemma fold_hits {A E K} (key : E -> K) (k : K) (f : list E -> A -> list E) l x :
  (forall m a e, In e m -> In e (f m a)) -> In x l ->
  (forall m, In k (map key (f m x))) -> forall m, In k (map key (fold_left f l m)).
Proof.
  intros Hi. induction l as [|a l IH]; intros Hx Hk m; [destruct Hx|]. simpl.
  destruct Hx as [->|Hx]; [|now apply IH].
  specialize (Hk m). apply in_map_iff in Hk as (e & <- & He).
  apply in_map. now apply fold_incl.
Qed.

Section Table.
Variable edge_from : Z -> Z -> Z -> bool.

Lemma direct_edge_in c0 m c1 e : In e (direct_edge edge_from c0 m c1) ->
  In e m \/ (is_surface c1 = true /\ cid c1 = cid c0 /\ fst e = cid c0
     /\ edge_from (cid c0) (vertex c0) (vertex c1) = snd e
     /\ edge_from (cid c0) (vertex c1) (vertex c0) = negb (snd e)).
Proof.
  unfold direct_edge.
  destruct (is_surface c1); simpl; [|auto].
  destruct (Z.eqb_spec (cid c1) (cid c0)) as [E|]; simpl; [|auto].
  destruct (edge_from (cid c0) (vertex c0) (vertex c1)) eqn:E1,
           (edge_from (cid c0) (vertex c1) (vertex c0)) eqn:E2; simpl; auto;
  intros H; apply emplace_id_in in H as [H| ->]; simpl; auto 10.
Qed.
Lemma direct_edge_incl c0 m c1 e : In e m -> In e (direct_edge edge_from c0 m c1).
Proof.
  intros H. unfold direct_edge. destruct (negb _); auto. destruct (negb _); auto.
  destruct (_ && _); [now apply emplace_id_incl|]. destruct (_ && _); [now apply emplace_id_incl|auto].
Qed.
Lemma direct_edge_key c0 m c1 d : is_surface c1 = true -> cid c1 = cid c0 ->
  edge_from (cid c0) (vertex c0) (vertex c1) = d ->
  edge_from (cid c0) (vertex c1) (vertex c0) = negb d ->
  In (cid c0) (map fst (direct_edge edge_from c0 m c1)).
Proof.
  intros S E E1 E2. unfold direct_edge. rewrite S, E, Z.eqb_refl, E1, E2. simpl.
  destruct d; simpl; apply emplace_id_key.
Qed.

Lemma direct_sound l s d : In (s, d) (surface_direct_edges edge_from l) -> runs_along edge_from l s d.
Proof.
  unfold surface_direct_edges. intros H.
  apply (fold_grow _ (fun e => runs_along edge_from l (fst e) (snd e))) in H.
  - destruct H as [[]|H]; exact H.
  - intros m c0 e H0 He. destruct (is_surface c0) eqn:S0; simpl in He; [|auto].
    apply (fold_grow _ (fun e => runs_along edge_from l (fst e) (snd e))) in He; auto.
    intros m' c1 e' H1 He'. apply direct_edge_in in He' as [|(S1 & E1 & Ef & Ea & Eb)]; auto.
    right. exists c0, c1. rewrite Ef. repeat split; auto.
Qed.
Lemma direct_complete l s d : runs_along edge_from l s d ->
  In s (map fst (surface_direct_edges edge_from l)).
Proof.
  intros (c0 & c1 & H0 & H1 & S0 & S1 & E0 & E1 & Ea & Eb). subst s.
  unfold surface_direct_edges. apply fold_hits with (x := c0); auto.
  - intros m a e He. destruct (is_surface a); simpl; auto. apply fold_incl; auto.
    intros; now apply direct_edge_incl.
  - intros m. rewrite S0. simpl. apply fold_hits with (x := c1); auto.
    + intros; now apply direct_edge_incl.
    + intros m'. eapply direct_edge_key; eauto.
Qed.

Lemma pair_surfaces_in m d e : In e (pair_surfaces m d) ->
  In e m \/ exists s0 s1, In s0 d /\ In s1 d /\ fst s0 < fst s1 /\
    e = (fst s0, fst s1, negb (Bool.eqb (snd s0) (snd s1))).
Proof.
  unfold pair_surfaces. destruct (_ <? _)%nat; [auto|].
  set (P := fun e : Z * Z * bool => exists s0 s1, In s0 d /\ In s1 d /\ fst s0 < fst s1 /\
    e = (fst s0, fst s1, negb (Bool.eqb (snd s0) (snd s1)))).
  apply (fold_grow _ P). intros m' s0 e' H0. apply (fold_grow _ P). intros m'' s1 e'' H1.
  destruct (Z.ltb_spec (fst s0) (fst s1)); [|auto].
  intros H'. apply emplace_pair_in in H' as [|]; auto. right. exists s0, s1. auto.
Qed.
Lemma pair_surfaces_incl m d e : In e m -> In e (pair_surfaces m d).
Proof.
  intros H. unfold pair_surfaces. destruct (_ <? _)%nat; [auto|].
  apply fold_incl; auto. intros m' s0 e' He. apply fold_incl; auto.
  intros m'' s1 e'' He'. destruct (_ <? _); auto. now apply emplace_pair_incl.
Qed.
Lemma pair_surfaces_key m d a b : In a (map fst d) -> In b (map fst d) -> a < b ->
  In (a, b) (map fst (pair_surfaces m d)).
Proof.
  intros Ha Hb L. apply in_map_iff in Ha as (s0 & <- & H0). apply in_map_iff in Hb as (s1 & <- & H1).
  unfold pair_surfaces. destruct (Nat.ltb_spec (List.length d) 2) as [K|K].
  - exfalso. destruct d as [|x [|y d]]; simpl in *; intuition; subst; lia.
  - assert (G : forall m s e, In e m -> In e (fold_left (fun m s1 => if fst s <? fst s1
           then emplace_pair m (fst s) (fst s1) (negb (Bool.eqb (snd s) (snd s1))) else m) d m)).
    { intros m' s e He. apply fold_incl; auto. intros m'' s' e' He'.
      destruct (_ <? _); auto. now apply emplace_pair_incl. }
    apply fold_hits with (x := s0); auto. intros m'.
    apply fold_hits with (x := s1); auto.
    + intros m'' s e He. destruct (_ <? _); auto. now apply emplace_pair_incl.
    + intros m''. rewrite (proj2 (Z.ltb_lt _ _) L). apply emplace_pair_key.
Qed.

Lemma table_sound lines a b v : In (a, b, v) (determine_paired_signs edge_from lines) ->
  a < b /\ exists l da db, In l lines /\ runs_along edge_from l a da /\ runs_along edge_from l b db
    /\ v = negb (Bool.eqb da db).
Proof.
  unfold determine_paired_signs. intros H.
  apply (fold_grow _ (fun e => fst (fst e) < snd (fst e) /\ exists l da db, In l lines /\
    runs_along edge_from l (fst (fst e)) da /\ runs_along edge_from l (snd (fst e)) db
    /\ snd e = negb (Bool.eqb da db))) in H.
  - destruct H as [[]|H]; exact H.
  - intros m l e Hl He. apply pair_surfaces_in in He as [|([s0 d0] & [s1 d1] & H0 & H1 & L & ->)]; auto.
    right. simpl in *. split; [exact L|]. exists l, d0, d1. auto using direct_sound.
Qed.
Lemma table_complete lines l a b da db : In l lines -> a < b ->
  runs_along edge_from l a da -> runs_along edge_from l b db ->
  In (a, b) (map fst (determine_paired_signs edge_from lines)).
Proof.
  intros Hl L Ha Hb. unfold determine_paired_signs. apply fold_hits with (x := l); auto.
  - intros; now apply pair_surfaces_incl.
  - intros m. apply pair_surfaces_key; eauto using direct_complete.
Qed.
End Table.

(** Two different surfaces are paired exactly when some line is bordered by both, and an
    orientation of the model satisfies all the pairs of the table. *)
Theorem C42_pairs_known edge_from lines a b : a <> b ->
  paired (determine_paired_signs edge_from lines) a b <> None <->
  exists l da db, In l lines /\ runs_along edge_from l a da /\ runs_along edge_from l b db.
Proof.
  intros N. unfold paired. split.
  - intros H. destruct (find_pair _ _ _) as [v|] eqn:E; [|congruence].
    apply find_pair_in, table_sound in E as (L & l & da & db & Hl & Ha & Hb & _).
    destruct (Z.le_ge_cases a b).
    + rewrite Z.min_l in * by lia. rewrite Z.max_r in * by lia. eauto 6.
    + rewrite Z.min_r in * by lia. rewrite Z.max_l in * by lia. eauto 6.
  - intros (l & da & db & Hl & Ha & Hb) E. apply find_pair_none in E. apply E.
    destruct (Z.le_ge_cases a b).
    + rewrite Z.min_l, Z.max_r by lia. eapply table_complete; eauto. lia.
    + rewrite Z.min_r, Z.max_l by lia. eapply table_complete; eauto. lia.
Qed.
Print Assumptions C42_pairs_known.

Theorem C42_orientation_consistent edge_from lines side ids : orientation edge_from lines side ->
  consistent (determine_paired_signs edge_from lines) ids side.
Proof.
  intros O a b same _ _ H. unfold paired in H.
  apply find_pair_in, table_sound in H as (L & l & da & db & Hl & Ha & Hb & ->).
  assert (K : negb (Bool.eqb da db) = true <-> da <> db) by (destruct da, db; simpl; intuition congruence).
  rewrite K. destruct (Z.le_ge_cases a b).
  - rewrite Z.min_l in * by lia. rewrite Z.max_r in * by lia. apply (O l); auto; lia.
  - rewrite Z.min_r in * by lia. rewrite Z.max_l in * by lia.
    split; intros G; [apply (O l b a da db); auto; lia|symmetry; apply (O l b a da db); auto; lia].
Qed.
Print Assumptions C42_orientation_consistent.

(** From the lines to the signs: if the model has an orientation, the relative signs are
    that orientation or its inverse, on any list of surfaces on which they are computed. *)
Theorem C42_signs_are_the_orientation edge_from lines side ids rs :
  orientation edge_from lines side ->
  determine_relative_signs ids (determine_paired_signs edge_from lines) = Ok rs ->
  rs = map side ids \/ rs = map (fun a => negb (side a)) ids.
Proof. intros O. apply C42_unique_up_to_inverse. now apply C42_orientation_consistent. Qed.
Print Assumptions C42_signs_are_the_orientation.

(** ** Volumes *)
Definition sumQ {A} (f : A -> Q) (l : list A) : Q := fold_right (fun a q => (f a + q)%Q) 0%Q l.

Lemma fold_sum {A} (f : A -> Q) l v : (fold_left (fun v a => v + f a) l v == v + sumQ f l)%Q.
Proof.
  revert v; induction l as [|a l IH]; intros v; simpl; [ring|]. rewrite IH. ring.
Qed.
Lemma sumQ_ext {A} (f g : A -> Q) l : (forall a, In a l -> f a == g a)%Q -> (sumQ f l == sumQ g l)%Q.
Proof.
  induction l as [|a l IH]; intros H; simpl; [reflexivity|].
  rewrite (H a), IH; [reflexivity| |now left]. intros; apply H; now right.
Qed.
Lemma sumQ_opp {A} (f : A -> Q) l : (sumQ (fun a => - f a) l == - sumQ f l)%Q.
Proof. induction l as [|a l IH]; simpl; [reflexivity|]. rewrite IH. ring. Qed.
Lemma sumQ_plus {A} (f g : A -> Q) l : (sumQ (fun a => f a + g a) l == sumQ f l + sumQ g l)%Q.
Proof. induction l as [|a l IH]; simpl; [reflexivity|]. rewrite IH. ring. Qed.
Lemma sumQ_app {A} (f : A -> Q) l m : (sumQ f (l ++ m) == sumQ f l + sumQ f m)%Q.
Proof. induction l as [|a l IH]; simpl; [ring|]. rewrite IH. ring. Qed.
Lemma sumQ_map {A B} (f : B -> Q) (g : A -> B) l : (sumQ f (map g l) == sumQ (fun a => f (g a)) l)%Q.
Proof. induction l as [|a l IH]; simpl; [reflexivity|]. rewrite IH. reflexivity. Qed.
Lemma sumQ_perm {A} (f : A -> Q) l m : Permutation l m -> (sumQ f l == sumQ f m)%Q.
Proof.
  induction 1; simpl; try reflexivity.
  - now rewrite IHPermutation.
  - ring.
  - etransitivity; eauto.
Qed.

(** The triangles of the surfaces, turned over where the side is [false]. *)
Definition turn (side : bool) (t : triangle) : triangle :=
  let '(p0, p1, p2) := t in if side then (p0, p1, p2) else (p0, p2, p1).
Definition oriented (meshes : Z -> SMesh) (ss : list (Z * bool)) : list triangle :=
  flat_map (fun e => map (turn (snd e)) (striangles (meshes (fst e)))) ss.

Lemma volume_sum meshes c ids rs :
  (signed_volume meshes c ids rs ==
   sumQ (fun t : triangle => let '(p0, p1, p2) := t in tetrahedron_signed_volume p0 p1 p2 c)
        (oriented meshes (combine ids rs)))%Q.
Proof.
  unfold signed_volume, oriented. generalize (combine ids rs) as l. intros l.
  match goal with |- (_ == sumQ ?F _)%Q => set (f := F) end.
  assert (T : forall s t, triangle_volume c s t = f (turn s t)) by (intros [|] [[? ?] ?]; reflexivity).
  assert (G : forall l v, (fold_left (fun v e => fold_left (fun v t => v + triangle_volume c (snd e) t)
     (striangles (meshes (fst e))) v) l v ==
     v + sumQ f (flat_map (fun e => map (turn (snd e)) (striangles (meshes (fst e)))) l))%Q).
  { clear l. induction l as [|e l IH]; intros v; simpl; [ring|].
    rewrite IH, sumQ_app, sumQ_map, fold_sum.
    rewrite (sumQ_ext _ (fun a => f (turn (snd e) a))); [ring|].
    intros t _. now rewrite T. }
  rewrite G. ring.
Qed.

Lemma tetra_neg p0 p1 p2 c :
  (tetrahedron_signed_volume p0 p2 p1 c == - tetrahedron_signed_volume p0 p1 p2 c)%Q.
Proof.
  destruct p0 as [[? ?] ?], p1 as [[? ?] ?], p2 as [[? ?] ?], c as [[? ?] ?].
  unfold tetrahedron_signed_volume, Qdiv. ring.
Qed.

Lemma oriented_neg meshes c ids rs :
  (signed_volume meshes c ids (map negb rs) == - signed_volume meshes c ids rs)%Q.
Proof.
  rewrite !volume_sum, <- sumQ_opp. revert rs. unfold oriented.
  induction ids as [|a ids IH]; intros [|s rs]; simpl; try reflexivity.
  rewrite !sumQ_app. rewrite IH, !sumQ_map. apply Qplus_comp; [|reflexivity].
  apply sumQ_ext. intros [[p0 p1] p2] _. destruct s; simpl; rewrite tetra_neg; ring.
Qed.

Lemma Qltb_opp v : ~ (v == 0)%Q -> Qltb 0 (- v) = negb (Qltb 0 v).
Proof.
  intros N. unfold Qltb.
  destruct (Qle_bool v 0) eqn:E1, (Qle_bool (- v) 0) eqn:E2; simpl; auto.
  - apply Qle_bool_iff in E1, E2. exfalso. apply N. lra.
  - exfalso. assert (~ (v <= 0)%Q) by (intros H; apply Qle_bool_iff in H; congruence).
    assert (~ (- v <= 0)%Q) by (intros H'; apply Qle_bool_iff in H'; congruence). lra.
Qed.

Lemma Qltb_ext v w : (v == w)%Q -> Qltb 0 v = Qltb 0 w.
Proof.
  intros E. unfold Qltb. f_equal. destruct (Qle_bool w 0) eqn:F.
  - apply Qle_bool_iff in F. apply Qle_bool_iff. lra.
  - destruct (Qle_bool v 0) eqn:G; auto. apply Qle_bool_iff in G. rewrite E in G.
    apply Qle_bool_iff in G. congruence.
Qed.
Lemma Qeqb_ext v w : (v == w)%Q -> Qeq_bool v 0 = Qeq_bool w 0.
Proof.
  intros E. destruct (Qeq_bool w 0) eqn:F.
  - apply Qeq_bool_iff in F. apply Qeq_bool_iff. lra.
  - destruct (Qeq_bool v 0) eqn:G; auto. apply Qeq_bool_iff in G. rewrite E in G.
    apply Qeq_bool_iff in G. congruence.
Qed.

Lemma correct_neg meshes ids rs :
  are_correct_sides meshes ids (map negb rs) = rmap negb (are_correct_sides meshes ids rs).
Proof.
  unfold are_correct_sides, rmap. destruct (front ids); simpl; auto.
  destruct (box_center _); simpl; auto.
  pose proof (oriented_neg meshes a0 ids rs) as E.
  set (v := signed_volume meshes a0 ids rs) in *.
  rewrite (Qeqb_ext _ _ E), (Qltb_ext _ _ E).
  assert (N : Qeq_bool (- v) 0 = Qeq_bool v 0).
  { destruct (Qeq_bool v 0) eqn:F.
    - apply Qeq_bool_iff in F. apply Qeq_bool_iff. lra.
    - destruct (Qeq_bool (- v) 0) eqn:G; auto. apply Qeq_bool_iff in G.
      assert (v == 0)%Q as H by lra. apply Qeq_bool_iff in H. congruence. }
  rewrite N. destruct (Qeq_bool v 0) eqn:F; simpl; auto.
  rewrite Qltb_opp; auto. intros H. apply Qeq_bool_iff in H. congruence.
Qed.

(** ** C43 *)

(** The result does not depend on the global orientation of the relative signs. *)
Theorem C43_start_orientation_irrelevant meshes block ids rs m :
  universe_sides_from meshes ids (map negb rs) = universe_sides_from meshes ids rs /\
  region_sides_from meshes block ids (map negb rs) m = region_sides_from meshes block ids rs m.
Proof.
  unfold universe_sides_from, region_sides_from. rewrite correct_neg.
  destruct (are_correct_sides meshes ids rs) as [c| | |]; simpl; auto.
  assert (G : forall (f : bool -> bool -> bool), (forall s, f (negb c) (negb s) = f c s) ->
    forall ids rs, map (fun e : Z * bool => (fst e, f (negb c) (snd e))) (combine ids (map negb rs))
            = map (fun e : Z * bool => (fst e, f c (snd e))) (combine ids rs)).
  { intros f F. clear ids rs. induction ids as [|a ids IH]; intros [|s rs]; simpl; auto.
    rewrite F, IH. reflexivity. }
  assert (H : forall {S} (g : S -> Z -> bool -> S) (f : bool -> bool) l m,
    fold_left (fun m e => g m (fst e) (f (snd e))) l m
    = fold_left (fun m e => g m (fst e) (snd e)) (map (fun e : Z * bool => (fst e, f (snd e))) l) m).
  { intros S g f. induction l; intros m'; simpl; auto. }
  split; f_equal.
  - rewrite (H _ (fun m a s => emplace_id m a s) (universe_side (negb c))),
            (H _ (fun m a s => emplace_id m a s) (universe_side c)).
    rewrite (G universe_side); auto. destruct c, s; reflexivity.
  - rewrite (H _ (fun m a s => emplace_pair m block a s) (region_side (negb c))),
            (H _ (fun m a s => emplace_pair m block a s) (region_side c)).
    rewrite (G region_side); auto. destruct c, s; reflexivity.
Qed.
Print Assumptions C43_start_orientation_irrelevant.

(** *** Maps of sides *)
Lemma find_id_cons {V} a v (m : list (Z * V)) k :
  find_id ((a, v) :: m) k = if a =? k then Some v else find_id m k.
Proof. unfold find_id. simpl. now destruct (a =? k). Qed.
Lemma find_id_app {V} (m m' : list (Z * V)) k :
  find_id (m ++ m') k = match find_id m k with Some v => Some v | None => find_id m' k end.
Proof.
  induction m as [|[a v] m IH]; simpl; [now destruct (find_id m' k)|].
  rewrite !find_id_cons. destruct (a =? k); auto.
Qed.
Lemma find_id_emplace {V} (m : list (Z * V)) a v k :
  find_id (emplace_id m a v) k = match find_id m k with
    | Some w => Some w | None => if a =? k then Some v else None end.
Proof.
  unfold emplace_id. destruct (find_id m a) eqn:E.
  - destruct (find_id m k) eqn:F; auto. destruct (Z.eqb_spec a k); congruence.
  - rewrite find_id_app. destruct (find_id m k); auto.
    rewrite find_id_cons. now destruct (a =? k).
Qed.
Lemma find_emplaces_id {V} (f : bool -> V) l : forall (m : list (Z * V)) k,
  find_id (fold_left (fun m e => emplace_id m (fst e) (f (snd e))) l m) k
  = match find_id m k with Some w => Some w | None => option_map f (find_id l k) end.
Proof.
  induction l as [|[a s] l IH]; intros m k; simpl; [now destruct (find_id m k)|].
  rewrite IH, find_id_emplace, find_id_cons. destruct (find_id m k); auto.
  now destruct (a =? k).
Qed.

Lemma find_pair_cons {V} a b v (m : list (Z * Z * V)) k l :
  find_pair ((a, b, v) :: m) k l = if (a =? k) && (b =? l) then Some v else find_pair m k l.
Proof. unfold find_pair. simpl. now destruct ((a =? k) && (b =? l)). Qed.
Lemma find_pair_app {V} (m m' : list (Z * Z * V)) k l :
  find_pair (m ++ m') k l = match find_pair m k l with Some v => Some v | None => find_pair m' k l end.
Proof.
  induction m as [|[[a b] v] m IH]; simpl; [now destruct (find_pair m' k l)|].
  rewrite !find_pair_cons. destruct ((a =? k) && (b =? l)); auto.
Qed.
Lemma find_pair_emplace {V} (m : list (Z * Z * V)) a b v k l :
  find_pair (emplace_pair m a b v) k l = match find_pair m k l with
    | Some w => Some w | None => if (a =? k) && (b =? l) then Some v else None end.
Proof.
  unfold emplace_pair. destruct (find_pair m a b) eqn:E.
  - destruct (find_pair m k l) eqn:F; auto.
    destruct (Z.eqb_spec a k), (Z.eqb_spec b l); simpl; congruence.
  - rewrite find_pair_app. destruct (find_pair m k l); auto.
    rewrite find_pair_cons. now destruct ((a =? k) && (b =? l)).
Qed.
Lemma find_emplaces_pair {V} (f : bool -> V) block l : forall (m : list (Z * Z * V)) b k,
  find_pair (fold_left (fun m e => emplace_pair m block (fst e) (f (snd e))) l m) b k
  = match find_pair m b k with Some w => Some w
    | None => if block =? b then option_map f (find_id l k) else None end.
Proof.
  induction l as [|[a s] l IH]; intros m b k; simpl.
  { destruct (find_pair m b k); auto. now destruct (block =? b). }
  rewrite IH, find_pair_emplace, find_id_cons. destruct (find_pair m b k); auto.
  destruct (block =? b); simpl; auto. now destruct (a =? k).
Qed.

Lemma find_combine {ids : list Z} {rs : list bool} a : List.length rs = List.length ids -> In a ids ->
  exists s, find_id (combine ids rs) a = Some s.
Proof.
  revert rs; induction ids as [|b ids IH]; intros [|s rs] L H; try discriminate; [destruct H|].
  simpl. rewrite find_id_cons. destruct (Z.eqb_spec b a); eauto.
  destruct H as [|H]; [congruence|]. apply IH; auto.
Qed.

Lemma signs_length ids tab rs : determine_relative_signs ids tab = Ok rs -> List.length rs = List.length ids.
Proof.
  unfold determine_relative_signs.
  destruct (Nat.eqb_spec (List.length ids) 1) as [E|E1].
  { intros H; injection H as <-. auto. }
  destruct (Nat.eqb_spec (List.length ids) 0) as [E|E0]; [discriminate|].
  destruct (relative_signs_spec ids tab) as (st & -> & I & D); [lia|]. simpl.
  destruct (forallb _ _); simpl; [|discriminate]. intros H; injection H as <-. apply I.
Qed.

(** What the side of a surface of one block is, whatever the other blocks. *)
Lemma regions_block meshes tab blocks r b ids :
  determine_regions_sides meshes tab blocks = Ok r -> NoDup (map fst blocks) -> In (b, ids) blocks ->
  exists rs c, determine_relative_signs ids tab = Ok rs /\ are_correct_sides meshes ids rs = Ok c /\
    forall s, find_pair r b s = option_map (region_side c) (find_id (combine ids rs) s).
Proof.
  unfold determine_regions_sides. intros H N I.
  assert (G : forall m, (forall s, find_pair m b s = None) ->
    foldM (fun m b => do rs <- determine_relative_signs (snd b) tab;
             region_sides_from meshes (fst b) (snd b) rs m) blocks m = Ok r ->
    exists rs c, determine_relative_signs ids tab = Ok rs /\ are_correct_sides meshes ids rs = Ok c /\
    forall s, find_pair r b s = option_map (region_side c) (find_id (combine ids rs) s)).
  2: { now apply (G []). }
  clear H. 
  assert (K : forall blocks m, ~ In b (map fst blocks) -> 
    foldM (fun m b => do rs <- determine_relative_signs (snd b) tab;
             region_sides_from meshes (fst b) (snd b) rs m) blocks m = Ok r ->
    forall s, find_pair r b s = find_pair m b s).
  { clear. induction blocks as [|[b' ids'] blocks IH]; intros m N H s; simpl in H; [congruence|].
    apply bind_ok in H as (m' & H1 & H2). apply bind_ok in H1 as (rs & H0 & H1).
    unfold region_sides_from in H1. apply bind_ok in H1 as (c & Hc & H1). injection H1 as <-.
    simpl in N. apply IH with (s := s) in H2; [|tauto]. rewrite H2, find_emplaces_pair.
    destruct (find_pair m b s); auto. destruct (Z.eqb_spec b' b); tauto. }
  induction blocks as [|[b' ids'] blocks IH]; intros m M H; [destruct I|].
  simpl in H. apply bind_ok in H as (m' & H1 & H2). apply bind_ok in H1 as (rs & H0 & H1).
  unfold region_sides_from in H1. apply bind_ok in H1 as (c & Hc & H1). injection H1 as <-.
  simpl in N. apply NoDup_cons_iff in N as [N0 N]. destruct I as [E|I].
  - injection E as -> ->. exists rs, c. split; [exact H0|]. split; [exact Hc|]. intros s.
    rewrite (K _ _ N0 H2), find_emplaces_pair, M, Z.eqb_refl. reflexivity.
  - apply (IH N I) with (2 := H2). intros s. rewrite find_emplaces_pair, M.
    destruct (Z.eqb_spec b' b) as [->|]; auto. exfalso. apply N0.
    now apply (in_map fst) in I.
Qed.

(** A surface list that is both the boundary of the universe and of a block: opposite sides. *)
Theorem C43_universe_region_opposite edge_from lines meshes boundaries blocks u r b :
  determine_sides edge_from lines meshes boundaries blocks = Ok (u, r) ->
  NoDup (map fst blocks) -> In (b, List.concat boundaries) blocks ->
  forall s, In s (List.concat boundaries) ->
  exists side, find_id u s = Some side /\ find_pair r b s = Some (negb side).
Proof.
  intros H N I s Hs. unfold determine_sides in H. apply bind_ok in H as ([] & _ & H). cbn zeta in H.
  apply bind_ok in H as (u' & Hu & H). apply bind_ok in H as (r' & Hr & H). injection H as -> ->.
  destruct (regions_block _ _ _ _ _ _ Hr N I) as (rs & c & E1 & E2 & F).
  unfold determine_universe_sides in Hu. rewrite E1 in Hu. cbn [bind] in Hu.
  unfold universe_sides_from in Hu. rewrite E2 in Hu. cbn [bind] in Hu. injection Hu as <-.
  destruct (find_combine s (signs_length _ _ _ E1) Hs) as (sg & Es).
  exists (universe_side c sg). rewrite F, find_emplaces_id, Es. simpl.
  split; [reflexivity|]. now destruct c, sg.
Qed.
Print Assumptions C43_universe_region_opposite.

(** ** C69: the sides tell where the normals point *)

(** Six times the volume enclosed by oriented triangles; positive when the normals point outwards. *)
Definition enclosed (ts : list triangle) : Q :=
  sumQ (fun t : triangle => let '((ax, ay, az), (bx, by_, bz), (cx, cy, cz)) := t in
    ax * (by_ * cz - bz * cy) + ay * (bz * cx - bx * cz) + az * (bx * cy - by_ * cx))%Q ts.

(** Every oriented edge is met as often in one direction as in the other. *)
Definition edges (ts : list triangle) : list (pt * pt) :=
  flat_map (fun t : triangle => let '(a, b, c) := t in [(a, b); (b, c); (c, a)]) ts.
Definition closed (ts : list triangle) : Prop :=
  Permutation (edges ts) (map (fun e => (snd e, fst e)) (edges ts)).

Definition with_side (side : Z -> bool) (ids : list Z) : list (Z * bool) := map (fun a => (a, side a)) ids.

Definition dot_cross (c a b : pt) : Q :=
  let '(cx, cy, cz) := c in let '(ax, ay, az) := a in let '(bx, by_, bz) := b in
  (cx * (ay * bz - az * by_) + cy * (az * bx - ax * bz) + cz * (ax * by_ - ay * bx))%Q.

Lemma closed_edges c ts : closed ts -> (sumQ (fun e => dot_cross c (fst e) (snd e)) (edges ts) == 0)%Q.
Proof.
  intros H. apply (sumQ_perm (fun e => dot_cross c (fst e) (snd e))) in H.
  rewrite sumQ_map in H.
  rewrite (sumQ_ext (fun a : pt * pt => dot_cross c (fst (snd a, fst a)) (snd (snd a, fst a)))
             (fun e => - dot_cross c (fst e) (snd e))%Q) in H.
  - rewrite (sumQ_opp (fun e => dot_cross c (fst e) (snd e))) in H.
    revert H. generalize (sumQ (fun e => dot_cross c (fst e) (snd e)) (edges ts)). intros q H. lra.
  - intros [[[? ?] ?] [[? ?] ?]] _. destruct c as [[? ?] ?]. simpl. ring.
Qed.

Lemma volume_enclosed c ts : closed ts ->
  (6 * sumQ (fun t : triangle => let '(p0, p1, p2) := t in tetrahedron_signed_volume p0 p1 p2 c) ts
   == - enclosed ts)%Q.
Proof.
  intros H. apply (closed_edges c) in H. revert H. unfold enclosed.
  assert (G : forall ts, (6 * sumQ (fun t : triangle => let '(p0, p1, p2) := t in tetrahedron_signed_volume p0 p1 p2 c) ts
    == sumQ (fun e => dot_cross c (fst e) (snd e)) (edges ts) - enclosed ts)%Q).
  { clear ts. induction ts as [|[[p0 p1] p2] ts IH]; [reflexivity|].
    unfold enclosed in *. cbn [sumQ fold_right edges flat_map app].
    fold (edges ts). unfold sumQ in *.
    set (S1 := fold_right (fun (a : triangle) q => _ + q)%Q 0%Q ts) in *.
    set (S2 := fold_right _ 0%Q (edges ts)) in *.
    set (S3 := fold_right _ 0%Q ts) in *.
    match goal with |- (6 * (?x + _) == ?y + (?z + (?w + _)) - (?q + _))%Q =>
      assert (E : (6 * x == y + z + w - q)%Q) end.
    { destruct p0 as [[? ?] ?], p1 as [[? ?] ?], p2 as [[? ?] ?], c as [[? ?] ?].
      simpl. field. }
    rewrite Qmult_plus_distr_r, E, IH. ring. }
  intros H. rewrite (G ts), H. unfold enclosed. ring.
Qed.

Lemma with_side_combine side ids : combine ids (map side ids) = with_side side ids.
Proof. induction ids; simpl; congruence. Qed.

Lemma find_with_side side ids s : In s ids -> find_id (with_side side ids) s = Some (side s).
Proof.
  induction ids as [|a ids IH]; intros H; [destruct H|]. simpl. rewrite find_id_cons.
  destruct (Z.eqb_spec a s); [now subst|]. destruct H; [congruence|auto].
Qed.

Lemma correct_inward meshes ids side c : 
  closed (oriented meshes (with_side side ids)) ->
  (enclosed (oriented meshes (with_side side ids)) < 0)%Q ->
  are_correct_sides meshes ids (map side ids) = Ok c -> c = true.
Proof.
  intros Hc Hv H. unfold are_correct_sides in H.
  apply bind_ok in H as (a0 & _ & H). apply bind_ok in H as (ce & _ & H). cbn zeta in H.
  apply bind_ok in H as ([] & _ & H). injection H as <-.
  unfold Qltb. apply negb_true_iff. destruct (Qle_bool _ 0) eqn:E; auto.
  apply Qle_bool_iff in E. exfalso. rewrite volume_sum, with_side_combine in E.
  pose proof (volume_enclosed ce _ Hc). lra.
Qed.

(** One list of surfaces, relative signs known up to the global inverse. *)
Lemma side_of_list meshes ids side rs c s :
  closed (oriented meshes (with_side side ids)) ->
  (enclosed (oriented meshes (with_side side ids)) < 0)%Q ->
  rs = map side ids \/ rs = map (fun a => negb (side a)) ids ->
  are_correct_sides meshes ids rs = Ok c -> In s ids ->
  exists sg, find_id (combine ids rs) s = Some sg /\ region_side c sg = side s.
Proof.
  intros Hc Hv R H I. destruct R as [-> | ->].
  - exists (side s). rewrite with_side_combine. split; [now apply find_with_side|].
    rewrite (correct_inward meshes ids side c Hc Hv H). reflexivity.
  - exists (negb (side s)).
    split; [rewrite with_side_combine; now apply (find_with_side (fun a => negb (side a)))|].
    rewrite <- (map_map side negb), correct_neg in H.
    unfold rmap in H. apply bind_ok in H as (c' & H & E). injection E as <-.
    rewrite (correct_inward meshes ids side c' Hc Hv H). simpl. now destruct (side s).
Qed.

(** If [side] orients the surfaces so that the boundary of the block is closed with all
    normals pointing into the block, the side written for each surface is [side], in whatever
    order the surfaces are listed. *)
Theorem C69_region_sides_point_inwards edge_from lines meshes blocks r b ids side :
  determine_regions_sides meshes (determine_paired_signs edge_from lines) blocks = Ok r ->
  NoDup (map fst blocks) -> In (b, ids) blocks ->
  orientation edge_from lines side ->
  closed (oriented meshes (with_side side ids)) ->
  (enclosed (oriented meshes (with_side side ids)) < 0)%Q ->
  forall s, In s ids -> find_pair r b s = Some (side s).
Proof.
  intros H N I O Hc Hv s Hs.
  destruct (regions_block _ _ _ _ _ _ H N I) as (rs & c & E1 & E2 & F).
  pose proof (C42_signs_are_the_orientation _ _ _ _ _ O E1) as R.
  destruct (side_of_list meshes ids side rs c s Hc Hv R E2 Hs) as (sg & Es & Er).
  rewrite F, Es. simpl. now rewrite Er.
Qed.
Print Assumptions C69_region_sides_point_inwards.

(** For the universe the written side is the opposite. *)
Theorem C69_universe_sides_point_outwards edge_from lines meshes boundaries u side :
  determine_universe_sides meshes (determine_paired_signs edge_from lines) boundaries = Ok u ->
  orientation edge_from lines side ->
  closed (oriented meshes (with_side side (List.concat boundaries))) ->
  (enclosed (oriented meshes (with_side side (List.concat boundaries))) < 0)%Q ->
  forall s, In s (List.concat boundaries) -> find_id u s = Some (negb (side s)).
Proof.
  intros H O Hc Hv s Hs. unfold determine_universe_sides in H. cbn zeta in H.
  apply bind_ok in H as (rs & E1 & H). unfold universe_sides_from in H.
  apply bind_ok in H as (c & E2 & H). injection H as <-.
  pose proof (C42_signs_are_the_orientation _ _ _ _ _ O E1) as R.
  destruct (side_of_list meshes _ side rs c s Hc Hv R E2 Hs) as (sg & Es & Er).
  rewrite find_emplaces_id, Es. simpl. rewrite <- Er. now destruct c, sg.
Qed.
Print Assumptions C69_universe_sides_point_outwards.

(** The sides of all blocks are computed when every block has connected boundary surfaces
    that enclose a volume. *)
Theorem C69_regions_succeed edge_from lines meshes blocks side :
  orientation edge_from lines side ->
  Forall (fun b => snd b <> [] /\
      connected (determine_paired_signs edge_from lines) (snd b) /\
      spoints (meshes (hd 0 (snd b))) <> [] /\
      closed (oriented meshes (with_side side (snd b))) /\
      ~ (enclosed (oriented meshes (with_side side (snd b))) == 0)%Q) blocks ->
  exists r, determine_regions_sides meshes (determine_paired_signs edge_from lines) blocks = Ok r.
Proof.
  intros O. unfold determine_regions_sides. generalize (@nil (Z * Z * bool)) as m.
  induction blocks as [|[b ids] blocks IH]; intros m H; simpl; [eauto|].
  apply Forall_cons_iff in H as [(N & C & P & Hc & Hv) H]. simpl in *.
  destruct (C42_connected_succeeds ids _ N C) as (rs & E & L). rewrite E. simpl.
  assert (A : exists c, are_correct_sides meshes ids rs = Ok c).
  { assert (B : exists c, are_correct_sides meshes ids (map side ids) = Ok c).
    { unfold are_correct_sides. destruct ids as [|a ids]; [congruence|]. cbn [front bind].
      unfold box_center. simpl in P. destruct (spoints (meshes a)); [congruence|]. cbn [bind].
      match goal with |- context [signed_volume ?m ?c ?i ?r] => set (ce := c); set (v := signed_volume m ce i r) end.
      destruct (Qeq_bool v 0) eqn:F; simpl; [|eauto]. exfalso. apply Hv.
      apply Qeq_bool_iff in F. pose proof (volume_enclosed ce _ Hc) as G.
      unfold v in F. rewrite volume_sum, with_side_combine in F. lra. }
    pose proof (C42_signs_are_the_orientation _ _ _ _ _ O E) as [-> | ->]; [exact B|].
    rewrite <- (map_map side negb), correct_neg. destruct B as (c & ->). simpl. eauto. }
  destruct A as (c & A). unfold region_sides_from. rewrite A. simpl. now apply IH.
Qed.
Print Assumptions C69_regions_succeed.

(** ** A concrete model: one tetrahedral block bounded by four triangles, the second one
    stored with the opposite orientation. *)
Definition directions (ef : Z -> Z -> Z -> bool) (l : LineView) : list (Z * bool) :=
  flat_map (fun c0 => flat_map (fun c1 =>
    if is_surface c0 && is_surface c1 && (cid c0 =? cid c1)
    then let d := ef (cid c0) (vertex c0) (vertex c1) in
         if Bool.eqb (ef (cid c0) (vertex c1) (vertex c0)) (negb d) then [(cid c0, d)] else []
    else []) (cmvs1 l)) (cmvs0 l).
Lemma directions_ok ef l s d : runs_along ef l s d -> In (s, d) (directions ef l).
Proof.
  intros (c0 & c1 & H0 & H1 & S0 & S1 & E0 & E1 & Ea & Eb).
  apply in_flat_map. exists c0. split; auto. apply in_flat_map. exists c1. split; auto.
  rewrite S0, S1, E0, E1, Z.eqb_refl, Ea, Eb. simpl. rewrite Bool.eqb_reflx. now left.
Qed.
Definition orientationb ef lines (side : Z -> bool) : bool :=
  forallb (fun l => forallb (fun a => forallb (fun b =>
    (fst a =? fst b) || Bool.eqb (Bool.eqb (side (fst a)) (side (fst b)))
                                 (negb (Bool.eqb (snd a) (snd b))))
    (directions ef l)) (directions ef l)) lines.
Lemma orientationb_ok ef lines side : orientationb ef lines side = true -> orientation ef lines side.
Proof.
  unfold orientationb, orientation. intros H l a b da db Hl N Ha Hb.
  apply directions_ok in Ha, Hb. rewrite forallb_forall in H. specialize (H l Hl).
  rewrite forallb_forall in H. specialize (H _ Ha). rewrite forallb_forall in H. specialize (H _ Hb).
  simpl in H. rewrite (proj2 (Z.eqb_neq _ _) N) in H. simpl in H.
  destruct (side a), (side b), da, db; simpl in H; intuition congruence.
Qed.

Definition ex_tri (s : Z) : Z * Z * Z :=
  match s with 10 => (0, 2, 1) | 20 => (0, 3, 1) | 30 => (0, 3, 2) | _ => (1, 2, 3) end.
Definition ex_edge (s v w : Z) : bool :=
  let '(a, b, c) := ex_tri s in
  ((v =? a) && (w =? b)) || ((v =? b) && (w =? c)) || ((v =? c) && (w =? a)).
Definition ex_cmvs (v : Z) : list CMV :=
  mkCMV false 99 v :: map (fun s => mkCMV true s v)
    (filter (fun s => let '(a, b, c) := ex_tri s in (v =? a) || (v =? b) || (v =? c)) [10; 20; 30; 40]).
Definition ex_lines : list LineView :=
  map (fun e => mkLine (ex_cmvs (fst e)) (ex_cmvs (snd e))) [(0,1); (0,2); (0,3); (1,2); (2,3); (3,1)].
Definition ex_pt (v : Z) : pt :=
  match v with 0 => (0, 0, 0)%Q | 1 => (1, 0, 0)%Q | 2 => (0, 1, 0)%Q | _ => (0, 0, 1)%Q end.
Definition ex_mesh (s : Z) : SMesh :=
  let '(a, b, c) := ex_tri s in mkSMesh [ex_pt a; ex_pt b; ex_pt c] [(ex_pt a, ex_pt b, ex_pt c)].
(** Sides that make all normals point into the block. *)
Definition ex_side (s : Z) : bool := s =? 20.

Example ex_orientation : orientation ex_edge ex_lines ex_side.
Proof. apply orientationb_ok. vm_compute. reflexivity. Qed.
Example ex_enclosed : Qlt (enclosed (oriented ex_mesh (with_side ex_side [30; 40; 20; 10]))) 0.
Proof. vm_compute. reflexivity. Qed.
Example ex_closed : closed (oriented ex_mesh (with_side ex_side [30; 40; 20; 10])).
Proof.
  unfold closed.
  match goal with |- Permutation ?x ?y =>
    let x' := eval vm_compute in x in let y' := eval vm_compute in y in change (Permutation x' y') end.
  do 12 match goal with
  | |- Permutation (?a :: ?l) ?m =>
      let rec go pre m := lazymatch m with
        | a :: ?t => apply (@Permutation_cons_app _ l pre t a); simpl
        | ?x :: ?t => let pre' := eval cbn [app] in (pre ++ [x]) in go pre' t end in go (@nil (pt * pt)) m
  end. constructor.
Qed.
Example ex_sides :
  determine_sides ex_edge ex_lines ex_mesh [[10; 20]; [30]; [40]] [(7, [30; 40; 20; 10])]
  = Ok ([(10, true); (20, false); (30, true); (40, true)],
        [(7, 30, false); (7, 40, false); (7, 20, true); (7, 10, false)]).
Proof. vm_compute. reflexivity. Qed.
Example ex_connected : connected (determine_paired_signs ex_edge ex_lines) [30; 40; 20; 10].
Proof.
  apply connected_from. intros j Hj.
  assert (K : forall k, (k < 3)%nat -> chain (determine_paired_signs ex_edge ex_lines) [30; 40; 20; 10] 0 (S k)).
  { intros k Hk. apply chain_step with (j := 0%nat) (a := 30) (b := nth k [40; 20; 10] 0);
      [constructor|reflexivity|do 3 (destruct k; [reflexivity|]); lia|].
    do 3 (destruct k; [vm_compute; discriminate|]). lia. }
  destruct j; [constructor|]. apply K. simpl in Hj. lia.
Qed.
(** Two surfaces that share no line: the export throws. *)
Example ex_disconnected : determine_relative_signs [10; 50] (determine_paired_signs ex_edge ex_lines) = Throw ExData.
Proof. vm_compute. reflexivity. Qed.

(** The point seen from which the volumes are summed is the center of the box of the first surface: on each axis, half way between the
    smallest and the largest coordinates. *)
Definition half_way (c : Q) (l : list Q) : Prop := exists lo hi, In lo l /\ In hi l /\ (forall x, In x l -> (lo <= x <= hi)%Q) /\ (c + c == lo + hi)%Q.
Lemma fold_min l : forall a, In (fold_left Qmin l a) (a :: l) /\ forall x, In x (a :: l) -> (fold_left Qmin l a <= x)%Q.
Proof.
  induction l as [|y l IH]; intros a; cbn [fold_left]; [split; [now left|intros x [<-|[]]; apply Qle_refl]|]. destruct (IH (Qmin a y)) as [H1 H2]. split.
  - destruct H1 as [H1|H1]; [|right; now right]. rewrite <- H1. unfold Qmin, GenericMinMax.gmin. destruct (Qcompare a y); [now left|now left|right; now left].
  - intros x Hx. assert (M : (fold_left Qmin l (Qmin a y) <= a)%Q /\ (fold_left Qmin l (Qmin a y) <= y)%Q).
    { specialize (H2 (Qmin a y) (or_introl eq_refl)). split; (eapply Qle_trans; [exact H2|]); [apply Q.le_min_l|apply Q.le_min_r]. }
    destruct M as [M1 M2]. destruct Hx as [<-|[<-|Hx]]; [assumption|assumption|]. apply H2. now right.
Qed.
Lemma fold_max l : forall a, In (fold_left Qmax l a) (a :: l) /\ forall x, In x (a :: l) -> (x <= fold_left Qmax l a)%Q.
Proof.
  induction l as [|y l IH]; intros a; cbn [fold_left]; [split; [now left|intros x [<-|[]]; apply Qle_refl]|]. destruct (IH (Qmax a y)) as [H1 H2]. split.
  - destruct H1 as [H1|H1]; [|right; now right]. rewrite <- H1. unfold Qmax, GenericMinMax.gmax. destruct (Qcompare a y); [now left|right; now left|now left].
  - intros x Hx. assert (M : (a <= fold_left Qmax l (Qmax a y))%Q /\ (y <= fold_left Qmax l (Qmax a y))%Q).
    { specialize (H2 (Qmax a y) (or_introl eq_refl)). split; (eapply Qle_trans; [|exact H2]); [apply Q.le_max_l|apply Q.le_max_r]. }
    destruct M as [M1 M2]. destruct Hx as [<-|[<-|Hx]]; [assumption|assumption|]. apply H2. now right.
Qed.
Lemma box1_half f p ps : half_way (box1 f p ps) (map f (p :: ps)).
Proof.
  destruct (fold_min (map f ps) (f p)) as [A1 A2]. destruct (fold_max (map f ps) (f p)) as [B1 B2].
  exists (fold_left Qmin (map f ps) (f p)), (fold_left Qmax (map f ps) (f p)). cbn [map]. split; [assumption|]. split; [assumption|]. split; [intros x Hx; split; auto|]. unfold box1. lra.
Qed.
Theorem C69_center : forall m x y z, box_center m = Ok (x, y, z) ->
  half_way x (map (fun q => fst (fst q)) (spoints m)) /\ half_way y (map (fun q => snd (fst q)) (spoints m)) /\ half_way z (map snd (spoints m)).
Proof.
  intros m x y z H. unfold box_center in H. destruct (spoints m) as [|p ps]; [discriminate|].
  assert (x = box1 (fun q => fst (fst q)) p ps) as -> by congruence. assert (y = box1 (fun q => snd (fst q)) p ps) as -> by congruence. assert (z = box1 snd p ps) as -> by congruence.
  split; [apply box1_half|]. split; apply box1_half.
Qed.
Print Assumptions C69_center.
