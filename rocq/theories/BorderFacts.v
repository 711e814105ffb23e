(** * Facts about the borders of Border.v *)
From Coq Require Import List ZArith Lia Bool Permutation.
From Verif Require Import Base GocadModel MeshModel TsModel Border.
Import ListNotations.
Local Open Scope list_scope.
Local Open Scope Z_scope.

(** What is expected of the adjacencies of a mesh: they relate edges of the mesh in both directions,
    with the same vertices in opposite order. *)
Record good_mesh (m : TMesh) : Prop := {
  gm_in : forall d d', In d (all_edges m) -> tm_adj m d = Some d' -> In d' (all_edges m);
  gm_sym : forall d d', In d (all_edges m) -> tm_adj m d = Some d' -> tm_adj m d' = Some d;
  gm_ends : forall d d', In d (all_edges m) -> tm_adj m d = Some d' ->
    fst (ends m d') = snd (ends m d) /\ snd (ends m d') = fst (ends m d)
}.

Section Facts.
Variable m : TMesh.

Lemma in_rangez n : forall s x, In x (rangez s n) <-> s <= x < s + Z.of_nat n.
Proof.
  induction n as [|n IH]; intros s x; cbn [rangez In]; [lia|]. rewrite IH. lia.
Qed.
Lemma in_all_edges p e : In (p, e) (all_edges m) <-> 0 <= p < lenz (tm_tris m) /\ 0 <= e < 3.
Proof.
  unfold all_edges. rewrite in_flat_map. split.
  - intros [q [Hq He]]. apply in_rangez in Hq. unfold lenz. cbn [In] in He.
    destruct He as [H|[H|[H|[]]]]; injection H as <- <-; lia.
  - intros [Hp He]. exists p. unfold lenz in Hp. split; [apply in_rangez; lia|].
    assert (e = 0 \/ e = 1 \/ e = 2) as [->|[->| ->]] by lia; cbn [In]; auto.
Qed.
Lemma rangez_nodup n : forall s, NoDup (rangez s n).
Proof.
  induction n as [|n IH]; intros s; cbn [rangez]; constructor; auto. rewrite in_rangez. lia.
Qed.
Lemma all_edges_nodup : NoDup (all_edges m).
Proof.
  unfold all_edges. pose proof (rangez_nodup (List.length (tm_tris m)) 0) as N. revert N.
  induction (rangez 0 (List.length (tm_tris m))) as [|p l IH]; intros N; [constructor|].
  apply NoDup_cons_iff in N as [N1 N2]. cbn [flat_map]. specialize (IH N2).
  assert (H : forall e, ~ In (p, e) (flat_map (fun p => [(p, 0); (p, 1); (p, 2)]) l)).
  { intros e H. apply in_flat_map in H as [q [Hq H]]. cbn [In] in H. destruct H as [H|[H|[H|[]]]]; injection H as -> _; contradiction. }
  cbn [app]. repeat constructor; cbn [In]; auto; intros [Q|Q]; try discriminate; try (now apply H in Q).
  destruct Q as [Q|Q]; [discriminate|now apply H in Q].
Qed.

Lemma mod3 e : 0 <= e < 3 -> ((e + 2) mod 3 + 1) mod 3 = e /\ ((e + 1) mod 3 + 2) mod 3 = e /\ 0 <= (e + 2) mod 3 < 3 /\ 0 <= (e + 1) mod 3 < 3.
Proof. intros H. assert (e = 0 \/ e = 1 \/ e = 2) as [->|[->| ->]] by lia; repeat split; cbn; lia. Qed.
Lemma next_previous d : In d (all_edges m) -> next_edge (previous_edge d) = d.
Proof. destruct d as [p e]. intros H. apply in_all_edges in H as [_ H]. unfold next_edge, previous_edge. cbn [fst snd]. f_equal. now apply mod3. Qed.
Lemma previous_next d : In d (all_edges m) -> previous_edge (next_edge d) = d.
Proof. destruct d as [p e]. intros H. apply in_all_edges in H as [_ H]. unfold next_edge, previous_edge. cbn [fst snd]. f_equal. now apply mod3. Qed.
Lemma previous_in d : In d (all_edges m) -> In (previous_edge d) (all_edges m).
Proof. destruct d as [p e]. unfold previous_edge. cbn [fst snd]. rewrite !in_all_edges. intros [H1 H]. split; [assumption|now apply mod3]. Qed.
Lemma next_in d : In d (all_edges m) -> In (next_edge d) (all_edges m).
Proof. destruct d as [p e]. unfold next_edge. cbn [fst snd]. rewrite !in_all_edges. intros [H1 H]. split; [assumption|now apply mod3]. Qed.
Lemma ends_next d : In d (all_edges m) -> fst (ends m (next_edge d)) = snd (ends m d).
Proof. destruct d as [p e]. unfold ends, next_edge. cbn [fst snd]. intros _. destruct (nthz (tm_tris m) p); reflexivity. Qed.
Lemma ends_previous d : In d (all_edges m) -> snd (ends m (previous_edge d)) = fst (ends m d).
Proof. intros H. rewrite <- (next_previous d H) at 2. symmetry. apply ends_next. now apply previous_in. Qed.

(** ** Turning around a vertex *)
Hypothesis G : good_mesh m.

Section Turn.
Variables turn back : pedge -> pedge.
Hypothesis turn_in : forall d, In d (all_edges m) -> In (turn d) (all_edges m).
Hypothesis back_in : forall d, In d (all_edges m) -> In (back d) (all_edges m).
Hypothesis turn_back : forall d, In d (all_edges m) -> turn (back d) = d.
Hypothesis back_turn : forall d, In d (all_edges m) -> back (turn d) = d.

Definition spin (t : pedge -> pedge) (d : pedge) : option pedge :=
  match tm_adj m d with None => None | Some d' => Some (t d') end.

Lemma spin_closed x y : In x (all_edges m) -> spin turn x = Some y -> In y (all_edges m).
Proof. unfold spin. intros Hx H. destruct (tm_adj m x) as [d|] eqn:Ed; [|discriminate]. injection H as <-. apply turn_in. exact (gm_in m G _ _ Hx Ed). Qed.
Lemma spin_inj x x' y : In x (all_edges m) -> In x' (all_edges m) -> spin turn x = Some y -> spin turn x' = Some y -> x = x'.
Proof.
  unfold spin. intros Hx Hx' H H'. destruct (tm_adj m x) as [d|] eqn:Ed; [|discriminate].
  destruct (tm_adj m x') as [d'|] eqn:Ed'; [|discriminate]. injection H as H. injection H' as H'.
  assert (d = d') by (rewrite <- (back_turn d), <- (back_turn d'); [congruence|exact (gm_in m G _ _ Hx' Ed')|exact (gm_in m G _ _ Hx Ed)]). subst d'.
  pose proof (gm_sym m G _ _ Hx Ed) as S. pose proof (gm_sym m G _ _ Hx' Ed') as S'. congruence.
Qed.
Lemma turn_around_path x l y fuel : path (spin turn) x l y -> tm_adj m y = None -> (List.length l <= fuel)%nat ->
  turn_around m turn fuel x = Ok y.
Proof.
  intros P. revert fuel. induction P as [x|x y l z Hf P IH]; intros fuel Ey Hl.
  - destruct fuel; cbn [turn_around]; now rewrite Ey.
  - unfold spin in Hf. destruct (tm_adj m x) as [d|] eqn:Ed; [|discriminate]. injection Hf as <-.
    cbn [List.length] in Hl. destruct fuel as [|fuel]; [lia|]. cbn [turn_around]. rewrite Ed. apply IH; [assumption|lia].
Qed.
Lemma turn_ends b : In b (all_edges m) -> tm_adj m b = None ->
  exists l y, path (spin turn) (turn b) l y /\ tm_adj m y = None /\ In y (all_edges m) /\
    turn_around m turn (List.length (all_edges m)) (turn b) = Ok y.
Proof.
  intros Hb Eb.
  destruct (path_ends (spin turn) (all_edges m) spin_closed spin_inj (turn b)) as [l [y [P [Ey L]]]].
  - now apply turn_in.
  - intros w Hw. unfold spin. destruct (tm_adj m w) as [d|] eqn:Ed; [|discriminate]. intros H. injection H as H.
    pose proof (gm_in m G _ _ Hw Ed) as Hd.
    assert (d = b) by (rewrite <- (back_turn d), <- (back_turn b) by assumption; congruence). subst d.
    pose proof (gm_sym m G _ _ Hw Ed). congruence.
  - assert (Ey' : tm_adj m y = None) by (unfold spin in Ey; destruct (tm_adj m y); [discriminate|reflexivity]).
    exists l, y. split; [assumption|]. split; [assumption|]. split.
    + eapply (path_in (spin turn) (all_edges m) spin_closed); [|eassumption]. now apply turn_in.
    + apply (turn_around_path _ l); [assumption|assumption|lia].
Qed.
(** The way back *)
Lemma path_back x l y : In x (all_edges m) -> path (spin turn) x l y ->
  exists l', path (spin back) (back y) l' (back x) /\ List.length l' = List.length l.
Proof.
  intros Hx P. induction P as [x|x y l z Hf P IH]; [exists []; split; [constructor|reflexivity]|].
  pose proof (spin_closed _ _ Hx Hf) as Hy. unfold spin in Hf. destruct (tm_adj m x) as [d|] eqn:Ed; [|discriminate].
  injection Hf as <-. pose proof (gm_in m G _ _ Hx Ed) as Hd. destruct (IH Hy) as [l' [P' L]].
  rewrite (back_turn d Hd) in P'. exists (l' ++ [d]). split; [|rewrite app_length; cbn; lia].
  eapply path_snoc; [exact P'|]. unfold spin. now rewrite (gm_sym m G _ _ Hx Ed).
Qed.
End Turn.

Lemma previous_ok b : In b (all_edges m) -> tm_adj m b = None ->
  exists y, previous_on_border m b = Ok y /\ In y (all_edges m) /\ tm_adj m y = None /\
    next_on_border m y = Ok b /\ snd (ends m y) = fst (ends m b).
Proof.
  intros Hb Eb.
  destruct (turn_ends previous_edge next_edge previous_in next_previous b Hb Eb) as [l [y [P [Ey [Hy T]]]]].
  exists y. split; [unfold previous_on_border, on_border; now rewrite Eb|]. split; [assumption|]. split; [assumption|]. split.
  - destruct (path_back previous_edge next_edge previous_in next_previous _ _ _ (previous_in _ Hb) P) as [l' [P' L]].
    rewrite next_previous in P' by assumption.
    unfold next_on_border, on_border. rewrite Ey. apply (turn_around_path next_edge _ l'); [assumption|assumption|].
    pose proof (path_nodup (spin previous_edge) (all_edges m)) as N.
    assert (ND : NoDup (l ++ [y])).
    { apply (N (spin_closed previous_edge previous_in) (spin_inj previous_edge next_edge next_previous) (previous_edge b)).
      - now apply previous_in.
      - intros w Hw. unfold spin. destruct (tm_adj m w) as [d|] eqn:Ed; [|discriminate]. intros H. assert (H' : previous_edge d = previous_edge b) by congruence. clear H.
        pose proof (gm_in m G _ _ Hw Ed) as Hd.
        assert (d = b) by (rewrite <- (next_previous d), <- (next_previous b) by assumption; congruence). subst d.
        pose proof (gm_sym m G _ _ Hw Ed). congruence.
      - assumption. }
    destruct (path_in (spin previous_edge) (all_edges m) (spin_closed previous_edge previous_in) _ _ _ (previous_in _ Hb) P) as [I1 I2].
    assert (Ln : (List.length (l ++ [y]) <= List.length (all_edges m))%nat).
    { apply NoDup_incl_length; [assumption|]. intros a Ha. apply in_app_or in Ha as [Ha|[<-|[]]]; auto. }
    rewrite app_length in Ln. cbn in Ln. lia.
  - rewrite <- (ends_previous b Hb). clear T Ey Hy. pose proof (previous_in _ Hb) as H. revert P H. generalize (previous_edge b). intros x P.
    induction P as [x|x z l w Hf P IH]; intros Hx; [reflexivity|].
    pose proof (spin_closed previous_edge previous_in _ _ Hx Hf) as Hz. rewrite (IH Hz).
    unfold spin in Hf. destruct (tm_adj m x) as [d|] eqn:Ed; [|discriminate]. injection Hf as <-.
    rewrite ends_previous by (exact (gm_in m G _ _ Hx Ed)). now apply (gm_ends m G _ _ Hx Ed).
Qed.

(** ** The loops *)
Definition borders : list pedge := filter (on_border m) (all_edges m).
Lemma in_borders d : In d borders <-> In d (all_edges m) /\ tm_adj m d = None.
Proof. unfold borders, on_border. rewrite filter_In. destruct (tm_adj m d); intuition congruence. Qed.
Lemma prev_border b : In b borders -> exists y, previous_on_border m b = Ok y /\ In y borders /\
  next_on_border m y = Ok b /\ snd (ends m y) = fst (ends m b).
Proof.
  intros H. apply in_borders in H as [H E]. destruct (previous_ok b H E) as [y [H1 [H2 [H3 [H4 H5]]]]].
  exists y. rewrite in_borders. auto.
Qed.
Lemma prev_inj b b' y : In b borders -> In b' borders -> previous_on_border m b = Ok y -> previous_on_border m b' = Ok y -> b = b'.
Proof.
  intros H H' E E'. destruct (prev_border b H) as [z [Ez [_ [N _]]]]. destruct (prev_border b' H') as [z' [Ez' [_ [N' _]]]]. congruence.
Qed.

Definition step_to (first b : pedge) : option pedge :=
  match previous_on_border m b with
  | Ok y => if pedge_eqb y first then None else Some y
  | _ => None
  end.
Lemma step_closed first x y : In x borders -> step_to first x = Some y -> In y borders.
Proof.
  unfold step_to. intros H E. destruct (prev_border x H) as [z [Ez [Hz _]]]. rewrite Ez in E.
  destruct (pedge_eqb z first); [discriminate|]. now injection E as <-.
Qed.
Lemma step_some first x y : step_to first x = Some y -> previous_on_border m x = Ok y /\ y <> first.
Proof.
  unfold step_to. destruct (previous_on_border m x) as [z| | |]; try discriminate. destruct (pedge_eqb z first) eqn:E; [discriminate|].
  intros H. injection H as <-. split; [reflexivity|]. intros ->. rewrite (proj2 (pedge_eqb_ok first first) eq_refl) in E. discriminate.
Qed.
Lemma step_inj first x x' y : In x borders -> In x' borders -> step_to first x = Some y -> step_to first x' = Some y -> x = x'.
Proof. intros H H' E E'. apply step_some in E as [E _]. apply step_some in E' as [E' _]. eapply prev_inj; eauto. Qed.

(** [l] is a border: each edge is preceded by the next one of the list, the last by the first *)
Definition cycle (l : list pedge) : Prop :=
  exists x t, l = x :: t /\ forall p a b q, x :: t ++ [x] = p ++ a :: b :: q -> previous_on_border m a = Ok b.

Lemma path_consecutive first x l y : path (step_to first) x l y ->
  forall p a b q, l ++ [y] = p ++ a :: b :: q -> previous_on_border m a = Ok b.
Proof.
  induction 1 as [x|x y l z Hf P IH]; intros p a b q E.
  - destruct p as [|? p]; [discriminate|]. destruct p; discriminate.
  - destruct p as [|c p]; cbn [app] in E.
    + injection E as <- E. apply step_some in Hf as [Hf _].
      assert (b = y); [|congruence]. inversion P; subst; cbn [app] in E; congruence.
    + injection E as <- E. eapply IH; eauto.
Qed.
Lemma walk_back_path first x l y fuel : path (step_to first) x l y -> previous_on_border m y = Ok first -> x <> first ->
  (List.length l < fuel)%nat -> walk_back m first fuel x = Ok (l ++ [y]).
Proof.
  intros P. revert fuel. induction P as [x|x y l z Hf P IH]; intros fuel Ez Nx L; cbn [List.length] in L;
    destruct fuel as [|fuel]; try lia; cbn [walk_back].
  - destruct (pedge_eqb x first) eqn:E; [now apply pedge_eqb_ok in E|]. rewrite Ez. cbn [bind].
    destruct fuel; cbn [walk_back]; rewrite (proj2 (pedge_eqb_ok first first) eq_refl); reflexivity.
  - destruct (pedge_eqb x first) eqn:E; [now apply pedge_eqb_ok in E|].
    apply step_some in Hf as [Hf Ny]. rewrite Hf. cbn [bind]. rewrite IH by (try assumption; lia). reflexivity.
Qed.
Lemma borders_length : (List.length borders <= List.length (all_edges m))%nat.
Proof.
  apply NoDup_incl_length; [apply NoDup_filter, all_edges_nodup|]. intros a Ha. now apply in_borders in Ha.
Qed.

Theorem border_walk_ok first : In first borders ->
  exists l, border_walk m first = Ok (first :: l) /\ NoDup (first :: l) /\ incl (first :: l) borders /\ cycle (first :: l).
Proof.
  intros H.
  assert (No : forall w, In w borders -> step_to first w <> Some first) by (intros w _ E; apply step_some in E as [_ E]; congruence).
  destruct (path_ends (step_to first) borders (step_closed first) (step_inj first) first H No) as [l [y [P [Ey L]]]].
  pose proof (path_nodup _ _ (step_closed first) (step_inj first) _ _ _ H No P) as ND.
  destruct (path_in _ _ (step_closed first) _ _ _ H P) as [Il Iy].
  assert (Py : previous_on_border m y = Ok first).
  { unfold step_to in Ey. destruct (prev_border y Iy) as [z [Ez _]]. rewrite Ez in *. destruct (pedge_eqb z first) eqn:E; [|discriminate].
    apply pedge_eqb_ok in E. congruence. }
  assert (I : incl (l ++ [y]) borders) by (intros a Ha; apply in_app_or in Ha as [Ha|[<-|[]]]; auto).
  pose proof (path_consecutive _ _ _ _ P) as C.
  assert (C' : forall p a b q, (l ++ [y]) ++ [first] = p ++ a :: b :: q -> previous_on_border m a = Ok b).
  { intros p a b q E. rewrite <- app_assoc in E. cbn [app] in E.
    destruct q as [|c q] using rev_ind.
    - assert (E2 : (l ++ [y]) ++ [first] = (p ++ [a]) ++ [b]) by (rewrite <- !app_assoc; exact E).
      apply app_inj_tail in E2 as [E2 <-]. apply app_inj_tail in E2 as [_ <-]. assumption.
    - clear IHq. assert (E2 : (l ++ [y]) ++ [first] = (p ++ a :: b :: q) ++ [c]) by (rewrite <- !app_assoc; exact E).
      apply app_inj_tail in E2 as [E2 _]. eapply C; eauto. }
  inversion P as [x|x z l' w Hf P' E1 E2 E3]; subst.
  - exists []. split; [|split; [|split]].
    + unfold border_walk. rewrite Py. cbn [bind]. destruct (List.length (all_edges m)); cbn [walk_back];
        rewrite (proj2 (pedge_eqb_ok y y) eq_refl); reflexivity.
    + exact ND.
    + exact I.
    + exists y, []. split; [reflexivity|]. exact C'.
  - exists (l' ++ [y]). split; [|split; [|split]].
    + unfold border_walk. apply step_some in Hf as [Hf Nz]. rewrite Hf. cbn [bind].
      rewrite (walk_back_path _ _ l' y); [reflexivity|assumption|assumption|assumption|].
      pose proof borders_length. cbn [List.length] in L. lia.
    + exact ND.
    + exact I.
    + exists first, (l' ++ [y]). split; [reflexivity|]. exact C'.
Qed.
End Facts.
