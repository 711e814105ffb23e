(** * Which segments of a saved curve close a loop, and by which number. *)
From Coq Require Import ZArith List Lia Bool Ascii String Permutation.
From Verif Require Import Base Text TextFacts GocadModel MeshModel TsModel PlModel PlFacts.
Import ListNotations.
Local Open Scope list_scope.
Local Open Scope Z_scope.

(** ** Specification *)

(** The edge [e] comes back to the vertex [w] where the first edge [e0] of the loop begins: it is the other edge of that
    loop that ends at [w], or [e0] itself when both its ends are [w]. *)
Definition closes (es : list edge) (around : Z -> list edge_vertex) (e e0 : nat) (w : Z) : Prop :=
  first_of_loop es around e0 w /\ same_loop es e0 e /\ (exists s, end_of es e s = Some w) /\ (e = e0 -> end_of es e0 true = Some w).

(** ** Facts *)
Section Rule.
Context (es : list edge) (around : Z -> list edge_vertex) (nv : nat) (G : curve_ok es around nv).
Notation vt := (vert es).
Notation ne := (List.length es).
Lemma linked_sym v x : linked es v x -> linked es x v.
Proof.
  induction 1 as [|v w x e s Hv Hw _ IH]; [constructor|]. apply linked_trans with w; [exact IH|].
  apply (linked_step _ _ v _ e (negb s)); [exact Hw|now rewrite negb_involutive|constructor].
Qed.
Lemma linked_ends e s s' : (e < ne)%nat -> linked es (vt (e, s)) (vt (e, s')).
Proof.
  intros H. destruct (Bool.bool_dec s s') as [<- |Hn]; [constructor|]. replace (e, s') with (flip (e, s)); [now apply linked_edge|].
  unfold flip. destruct s, s'; cbn; congruence.
Qed.
Lemma first_same e0 e1 w w1 : first_of_loop es around e0 w -> first_of_loop es around e1 w1 -> linked es w w1 -> e0 = e1.
Proof.
  intros (H1 & _ & H2) (H3 & _ & H4) L. apply Nat.le_antisymm.
  - apply H2. exists w, w1. auto.
  - apply H4. exists w1, w. split; [exact H3|]. split; [exact H1|]. now apply linked_sym.
Qed.
Lemma three v a b c : deg around v = 2%nat -> In a (around v) -> In b (around v) -> In c (around v) -> a <> b -> a <> c -> b <> c -> False.
Proof.
  intros Hd Ha Hb Hc N1 N2 N3. destruct (two_ends es around nv G v a Hd Ha) as (x & _ & _ & Ho & _).
  destruct (Ho b Hb), (Ho c Hc); congruence.
Qed.
(** All the vertices met on a path are joined. *)
Lemma path_linked path : chained es path -> Forall (fun a => (fst a < ne)%nat) path -> forall ev a s, hd_error path = Some ev -> In a path ->
  linked es (vt ev) (vt (fst a, s)).
Proof.
  intros Hc Hl ev a s Hh Ha. apply linked_trans with (vt a); [exact (chained_linked es path Hc Hl ev Hh a Ha)|].
  rewrite Forall_forall in Hl. destruct a as [e t]. cbn [fst]. apply linked_ends. exact (Hl _ Ha).
Qed.

(** The numbers [ab] of a segment of the file, for the edge [ev]. *)
Definition seg_rule (vs : list Z) (ab : Z * Z) (ev : edge_vertex) : Prop :=
  1 <= fst ab /\ nth_error vs (Z.to_nat (fst ab - 1)) = Some (vt ev) /\
  (((exists e0, closes es around (fst ev) e0 (vt (flip ev))) /\ snd ab = add32 (vt (flip ev)) 1) \/
   ((forall e0, ~ closes es around (fst ev) e0 (vt (flip ev))) /\ 1 <= snd ab /\ nth_error vs (Z.to_nat (snd ab - 1)) = Some (vt (flip ev)))).
Lemma nodup_nth (path : list edge_vertex) : NoDup (map fst path) -> forall i j a b, nth_error path i = Some a -> nth_error path j = Some b -> fst a = fst b -> i = j.
Proof.
  intros H i j a b Ha Hb E. apply (proj1 (NoDup_nth_error (map fst path)) H).
  - rewrite map_length. apply nth_error_Some. congruence.
  - rewrite !nth_error_map, Ha, Hb. cbn. now rewrite E.
Qed.
Lemma closes_path path e0 w : chained es path -> Forall (fun a => (fst a < ne)%nat) path -> forall ev a b s, hd_error path = Some ev -> In a path ->
  closes es around (fst a) e0 w -> In b path -> linked es w (vt (fst b, s)).
Proof.
  intros Hc Hl ev a b s Hh Ha (_ & _ & (t & Ht) & _) Hb. apply end_of_lt in Ht as [_ <-].
  apply linked_trans with (vt ev); [apply linked_sym|]; now apply (path_linked path).
Qed.
Lemma block_rule pre post b path : drawn es around path b -> b_off b = 1 + lenz pre ->
  NoDup (map fst path) -> Forall (fun a => (fst a < ne)%nat) path ->
  Forall2 (seg_rule (pre ++ b_vs b ++ post)) (segs b) path.
Proof.
  intros Hd Ho Hn Hl. pose proof (block_segs es around pre post b path Hd Ho) as S0.
  assert (Hlen : (0 < List.length path)%nat) by (destruct Hd as [? ? H|? ? ? H]; destruct path; try discriminate; cbn; lia).
  assert (L0 : List.length (segs b) = List.length path) by (clear - S0; induction S0; cbn; congruence).
  apply Forall2_nth; [exact L0|]. intros i [a c] ev' Hs He.
  assert (Q : seg_ok es (pre ++ b_vs b ++ post) (~ own_close b) (a, c) ev').
  { clear - S0 Hs He. revert i Hs He. induction S0 as [|x y l k H _ IH]; intros i Hs He; [now destruct i|].
    destruct i as [|i]; [cbn in Hs, He; congruence|]. exact (IH i Hs He). }
  destruct Q as (Q1 & Q2 & _). cbn [fst snd] in *. split; [exact Q1|]. split; [exact Q2|]. cbn [fst snd].
  pose proof (nth_error_In _ _ He) as Hin.
  assert (Hh0 : exists h, hd_error path = Some h) by (destruct path; [cbn in Hlen; lia|eexists; reflexivity]). destruct Hh0 as (h & Hh).
  assert (Hi : (i < List.length path)%nat) by (apply nth_error_Some; congruence).
  assert (Hnth : forall i a, nth_error path i = Some a -> nth_error (b_vs b) i = Some (vt a)).
  { intros j x Hx. assert (Hj : (j < List.length path)%nat) by (apply nth_error_Some; congruence).
    destruct Hd as [lst _ H E _ _|ev lst _ H _ _ E _ _]; rewrite E, nth_error_map; [rewrite nth_error_app1 by exact Hj|]; now rewrite Hx. }
  assert (Hlen2 : (List.length path - 1 <= List.length (b_vs b) - 1)%nat).
  { destruct Hd as [lst _ H E _ _|ev lst _ H _ _ E _ _]; rewrite E, map_length, ?app_length; cbn; lia. }
  unfold segs in Hs. destruct Hd as [lst Hc Hlst E Ec Hdeg|ev lst Hc Hlst Hh' Hv E Ec Hf].
  - right. assert (Lb : List.length (b_vs b) = S (List.length path)) by (rewrite E, map_length, app_length; cbn; lia).
    rewrite nth_error_app1 in Hs by (rewrite map_length, rangez_length; lia).
    rewrite nth_error_map, rangez_nth in Hs by lia. cbn [option_map] in Hs. injection Hs as <- <-. split.
    + intros e0 Hcl. apply Hdeg. destruct lst as [el sl]. pose proof Hcl as ((_ & Hf & _) & _). apply Hf.
      unfold flip. cbn [fst snd]. apply (closes_path path e0 _ Hc Hl h ev' (el, sl) (negb sl) Hh Hin Hcl). now apply nth_error_In in Hlst.
    + unfold lenz in *. split; [lia|]. replace (Z.to_nat (b_off b + Z.of_nat i + 1 - 1)) with (List.length pre + S i)%nat by lia. apply (nth_mid es).
      destruct (nth_error path (S i)) as [nx|] eqn:En.
      * rewrite (Hnth _ _ En). f_equal. exact (chained_nth es path Hc i ev' nx He En).
      * apply nth_error_None in En. assert (Eq : i = (List.length path - 1)%nat) by lia. rewrite E, nth_error_map, nth_error_app2 by lia.
        replace (S i - List.length path)%nat with O by lia. cbn. rewrite Eq, Hlst in He. now injection He as <-.
  - assert (h = ev) by congruence. subst h. assert (Lb : List.length (b_vs b) = List.length path) by (rewrite E; apply map_length).
    assert (Hev : nth_error path 0 = Some ev) by (destruct path; [discriminate|exact Hh]).
    assert (Hlev : (fst ev < ne)%nat) by (rewrite Forall_forall in Hl; apply Hl; now apply nth_error_In in Hev).
    destruct (Nat.lt_ge_cases i (List.length path - 1)) as [Hlt|Hge].
    + right. rewrite nth_error_app1 in Hs by (rewrite map_length, rangez_length; lia).
      rewrite nth_error_map, rangez_nth in Hs by lia. cbn [option_map] in Hs. injection Hs as <- <-.
      destruct (nth_error path (S i)) as [nx|] eqn:En; [|apply nth_error_None in En; lia].
      pose proof (chained_nth es path Hc i ev' nx He En) as Env. split.
      * intros e0 Hcl. pose proof Hcl as (Hf0 & _ & _ & Hself).
        assert (Ee : e0 = fst ev).
        { apply (first_same e0 (fst ev) _ _ Hf0 Hf). destruct ev as [x t]. apply (closes_path path e0 _ Hc Hl (x, t) ev' (x, t) t Hh Hin Hcl).
          now apply nth_error_In in Hev. }
        subst e0. assert (Ew : vt (flip ev') = vt ev) by (destruct Hf0 as [K1 _], Hf as [K2 _]; congruence).
        rewrite Forall_forall in Hl. pose proof (Hl _ Hin) as Hl1. pose proof (Hl _ (nth_error_In _ _ En)) as Hl2.
        assert (Hdeg : deg around (vt ev) = 2%nat) by (apply (proj1 (proj2 Hf)); constructor).
        assert (I1 : In ev (around (vt ev))) by now apply (ev_in es around nv G).
        assert (I2 : In (flip ev') (around (vt ev))) by (rewrite <- Ew; now apply (flip_in es around nv G)).
        assert (I3 : In nx (around (vt ev))) by (rewrite <- Ew, <- Env; now apply (ev_in es around nv G)).
        assert (N3 : nx <> ev) by (intros Hx; assert (0 = S i)%nat by (apply (nodup_nth path Hn _ _ _ _ Hev En); now rewrite Hx); lia).
        assert (N2 : flip ev' <> nx).
        { intros Hx. assert (i = S i)%nat by (apply (nodup_nth path Hn _ _ _ _ He En); rewrite <- Hx; reflexivity). lia. }
        assert (N1 : flip ev' <> ev).
        { intros Hx. assert (0 = i)%nat by (apply (nodup_nth path Hn _ _ _ _ Hev He); rewrite <- Hx; reflexivity). subst i.
          rewrite Hev in He. injection He as <-. now apply flip_neq in Hx. }
        apply (three (vt ev) ev (flip ev') nx Hdeg I1 I2 I3); congruence.
      * unfold lenz in *. split; [lia|]. replace (Z.to_nat (b_off b + Z.of_nat i + 1 - 1)) with (List.length pre + S i)%nat by lia. apply (nth_mid es).
        rewrite (Hnth _ _ En). now f_equal.
    + left. assert (Eq : i = (List.length path - 1)%nat) by lia.
      rewrite nth_error_app2 in Hs by (rewrite map_length, rangez_length; lia). rewrite map_length, rangez_length, Ec in Hs.
      replace (i - (List.length (b_vs b) - 1))%nat with O in Hs by lia. cbn [nth_error] in Hs. injection Hs as <- <-.
      assert (El : ev' = lst) by (rewrite Eq, Hlst in He; now injection He). subst ev'.
      split; [|now rewrite Hv]. exists (fst ev). rewrite Hv. split; [exact Hf|].
      rewrite Forall_forall in Hl. pose proof (Hl _ Hin) as Hl1. assert (Hl' : Forall (fun a => (fst a < ne)%nat) path) by now apply Forall_forall.
      split; [|split].
      * exists (vt (fst ev, false)), (vt (fst lst, false)). split; [now apply end_vert|]. split; [now apply end_vert|].
        apply linked_trans with (vt ev); [destruct ev as [x t]; now apply linked_ends|]. now apply (path_linked path Hc Hl').
      * exists (negb (snd lst)). rewrite end_vert by exact Hl1. f_equal. exact Hv.
      * intros Hx. assert (Ez : 0%nat = i) by (apply (nodup_nth path Hn _ _ _ _ Hev He); congruence). rewrite <- Ez, Hev in He. injection He as <-.
        destruct Hf as (K & _). apply end_of_lt in K as [_ K]. rewrite end_vert by exact Hlev. f_equal.
        destruct ev as [x t]. unfold flip in Hv. cbn [fst snd] in *. destruct t; cbn [negb] in *; congruence.
Qed.
Lemma blocks_rule paths : forall bs pre post, Forall2 (drawn es around) paths bs -> numbered (1 + lenz pre) bs ->
  NoDup (edges_of paths) -> Forall (fun a => (fst a < ne)%nat) (List.concat paths) ->
  Forall2 (seg_rule (pre ++ all_vs bs ++ post)) (flat_map segs bs) (List.concat paths).
Proof.
  induction paths as [|p paths IH]; intros bs pre post Hd Hn Hnd Hl; inversion Hd as [|? b ? bs' Hd1 Hd2]; subst; [constructor|].
  cbn [numbered] in Hn. destruct Hn as [Hn1 Hn2]. cbn [flat_map List.concat] in *. unfold all_vs. cbn [flat_map]. fold (all_vs bs').
  unfold edges_of in Hnd. cbn [List.concat] in Hnd. rewrite map_app in Hnd. apply Forall_app in Hl as [Hl1 Hl2].
  assert (Hnd1 : NoDup (map fst p)) by (clear - Hnd; induction (map fst p) as [|x l I]; [constructor|]; cbn in Hnd; inversion Hnd as [|? ? N1 N2]; subst; constructor; [intros Hx; apply N1; apply in_or_app; now left|auto]).
  assert (Hnd2 : NoDup (edges_of paths)) by (clear - Hnd; unfold edges_of; induction (map fst p) as [|x l I]; [exact Hnd|]; cbn in Hnd; inversion Hnd; auto).
  apply Forall2_app.
  - rewrite <- app_assoc. now apply block_rule.
  - specialize (IH bs' (pre ++ b_vs b) post Hd2). rewrite <- !app_assoc in *. apply IH; [|exact Hnd2|exact Hl2].
    unfold lenz in *. rewrite app_length. replace (1 + Z.of_nat (List.length pre + List.length (b_vs b))) with (1 + Z.of_nat (List.length pre) + Z.of_nat (List.length (b_vs b))) by lia. exact Hn2.
Qed.
(** Every loop is closed by one of the edges drawn. *)
Lemma loop_closed paths bs e0 w : Forall2 (drawn es around) paths bs -> Forall (fun a => (fst a < ne)%nat) (List.concat paths) -> NoDup (edges_of paths) ->
  Permutation (edges_of paths) (seq 0 ne) -> first_of_loop es around e0 w ->
  exists ev, In ev (List.concat paths) /\ vt (flip ev) = w /\ closes es around (fst ev) e0 w.
Proof.
  intros Hd Hl Hnd Hp Hf. pose proof Hf as (He0 & Hdeg & Hmin). pose proof (end_of_lt es _ _ _ He0) as [Hlt _].
  assert (Hi : In e0 (edges_of paths)) by (apply (Permutation_in _ (Permutation_sym Hp)), in_seq; lia).
  apply in_map_iff in Hi as (a & Ea & Ha). apply in_concat in Ha as (path & Hpath & Ha).
  assert (Hl' : Forall (fun a => (fst a < ne)%nat) path).
  { rewrite Forall_forall in *. intros x Hx. apply Hl. apply in_concat. eauto. }
  assert (Hb : exists b, drawn es around path b).
  { clear - Hd Hpath. induction Hd as [|p b ps bs H _ IH]; [contradiction|]. destruct Hpath as [-> |Hx]; eauto. }
  destruct Hb as (b & Hb). destruct Hb as [lst Hc Hlst E Ec Hd2|ev lst Hc Hlst Hh Hv E Ec Hf2].
  - exfalso. apply Hd2, Hdeg. assert (Hh : exists h, hd_error path = Some h) by (destruct path; [contradiction|eexists; reflexivity]). destruct Hh as (h & Hh).
    apply end_of_lt in He0 as [_ <-]. apply linked_trans with (vt h).
    + apply linked_sym. rewrite <- Ea. now apply (path_linked path Hc Hl').
    + destruct lst as [el sl]. unfold flip. cbn [fst snd]. change el with (fst (el, sl)). apply (path_linked path Hc Hl'); [exact Hh|]. now apply nth_error_In in Hlst.
  - assert (L : linked es (vt ev) w) by (apply end_of_lt in He0 as [_ <-]; rewrite <- Ea; now apply (path_linked path Hc Hl')).
    pose proof (first_same _ _ _ _ Hf2 Hf L) as Ee. assert (Ew : vt ev = w) by (destruct Hf2 as [K _]; rewrite Ee in K; congruence).
    exists lst. split; [apply in_concat; exists path; split; [exact Hpath|now apply nth_error_In in Hlst]|]. split; [congruence|].
    assert (Hnp : NoDup (map fst path)).
    { clear - Hnd Hpath. unfold edges_of in Hnd. induction paths as [|p ps IH]; [contradiction|]. cbn [List.concat] in Hnd. rewrite map_app in Hnd.
      destruct Hpath as [-> |Hx].
      - clear IH. induction (map fst path) as [|x l I]; [constructor|]; cbn in Hnd; inversion Hnd as [|? ? N1 N2]; subst; constructor; [intros Hx; apply N1; apply in_or_app; now left|auto].
      - apply IH; [|exact Hx]. clear - Hnd. induction (map fst p) as [|x l I]; [exact Hnd|]; cbn in Hnd; inversion Hnd; auto. }
    split; [exact Hf|]. rewrite Forall_forall in Hl'.
      assert (Hl1 : (fst lst < ne)%nat) by (apply Hl'; now apply nth_error_In in Hlst). assert (Hlev : (fst ev < ne)%nat) by now rewrite Ee.
      assert (Hl2 : Forall (fun a => (fst a < ne)%nat) path) by now apply Forall_forall.
      split; [|split].
      * exists w, (vt (fst lst, false)). split; [exact He0|]. split; [now apply end_vert|]. rewrite <- Ew.
        apply (path_linked path Hc Hl2); [exact Hh|]. now apply nth_error_In in Hlst.
      * exists (negb (snd lst)). rewrite end_vert by exact Hl1. f_equal. rewrite <- Ew. exact Hv.
      * intros Hx. assert (Hev : nth_error path 0 = Some ev) by (destruct path; [discriminate|exact Hh]).
        pose proof (nodup_nth path Hnp _ _ _ _ Hev Hlst ltac:(congruence)) as Ez. rewrite <- Ez, Hev in Hlst. injection Hlst as <-.
        rewrite end_vert by exact Hlt. f_equal. apply end_of_lt in He0 as [_ K]. rewrite <- Ee in *.
        destruct ev as [x t]. unfold flip in Hv. cbn [fst snd] in *. destruct t; cbn [negb] in *; congruence.
Qed.
End Rule.
