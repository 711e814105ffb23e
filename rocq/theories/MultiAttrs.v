(** * Attributes of a file made of several saved objects (C09). *)
From Coq Require Import ZArith List Lia Bool Ascii String.
From Verif Require Import Base Text TextFacts GocadModel MeshModel TsModel Spec GocadFacts TsFacts CrlfFacts
  StreamFacts MultiFacts MultiMore PropsTsVs.
Import ListNotations.
Local Open Scope string_scope.
Local Open Scope list_scope.
Local Open Scope Z_scope.

Section Over.
Context (F : Num).
Definition nd : list (num F) := [rv F (ndv F)].
(** All attributes hold one number per vertex and have the same no-data default. *)
Definition good_attrs (n : nat) (l : list (bytes * attr (num F))) : Prop :=
  NoDup (map fst l) /\
  Forall (fun na => a_type (snd na) = 1 /\ a_def (snd na) = nd /\ List.length (a_vals (snd na)) = n) l.
Definition val (l : list (bytes * attr (num F))) (p : bytes) (v : nat) : option (list (num F)) :=
  match find_attr p l with Some a => nth_error (a_vals a) v | None => None end.
Definition wfind (p : bytes) (ws : list (wattr F)) : option (wattr F) := find (fun w => beq (w_name w) p) ws.

Lemma replace_attr_names {V} n (a : attr V) l : forall x, In x (map fst (replace_attr n a l)) <-> x = n \/ In x (map fst l).
Proof.
  intros x. induction l as [|[k b] r IH]; cbn [replace_attr map fst In]; [intuition|].
  destruct (beq k n) eqn:E; cbn [map fst In].
  - apply beq_eq in E. subst k. intuition.
  - rewrite IH. intuition.
Qed.
Lemma replace_attr_nodup {V} n (a : attr V) l : NoDup (map fst l) -> NoDup (map fst (replace_attr n a l)).
Proof.
  induction l as [|[k b] r IH]; cbn [replace_attr map fst]; intros H; [repeat constructor; auto|].
  inversion H as [|? ? H1 H2]; subst. destruct (beq k n) eqn:E; cbn [map fst].
  - apply beq_eq in E. subst k. now constructor.
  - constructor; [|auto]. rewrite replace_attr_names. intros [->|Hi]; [|contradiction].
    rewrite beq_refl in E. discriminate.
Qed.
Lemma find_attr_replace {V} n (a : attr V) l p :
  find_attr p (replace_attr n a l) = if beq n p then Some a else find_attr p l.
Proof.
  unfold find_attr. induction l as [|[k b] r IH]; cbn [replace_attr find fst].
  - destruct (beq n p); reflexivity.
  - destruct (beq k n) eqn:E; cbn [find fst].
    + apply beq_eq in E. subst k. destruct (beq n p); reflexivity.
    + destruct (beq k p) eqn:E2; [|exact IH]. destruct (beq n p) eqn:E3; [|reflexivity].
      apply beq_eq in E2, E3. subst k n. rewrite beq_refl in E. discriminate.
Qed.
Lemma find_attr_some {V} p (l : list (bytes * attr V)) a : find_attr p l = Some a -> In (p, a) l.
Proof.
  unfold find_attr. destruct (find _ l) as [[n' a']|] eqn:E; [|discriminate]. intros H. injection H as <-.
  apply find_some in E as [E1 E2]. cbn [fst] in E2. apply beq_eq in E2. now subst n'.
Qed.
Lemma nth_over {A} (f : nat -> A) n (l : list A) v : (n <= List.length l)%nat ->
  nth_error (map f (seq 0 n) ++ skipn n l) v = if (v <? n)%nat then Some (f v) else nth_error l v.
Proof.
  intros H. destruct (v <? n)%nat eqn:E.
  - apply Nat.ltb_lt in E. rewrite nth_error_app1 by (rewrite map_length, seq_length; lia).
    rewrite nth_error_map, nth_error_nth' with (d := 0%nat) by (rewrite seq_length; lia).
    now rewrite seq_nth by lia.
  - apply Nat.ltb_ge in E. rewrite nth_error_app2 by (rewrite map_length, seq_length; lia).
    rewrite map_length, seq_length. clear H. revert v l E. induction n as [|n IH]; intros v l E.
    + now rewrite Nat.sub_0_r.
    + destruct v as [|v]; [lia|]. destruct l as [|x l]; cbn [skipn Nat.sub nth_error].
      * now destruct (v - n)%nat.
      * apply IH. lia.
Qed.

Lemma create_attributes_over {C} ws (m : mesh F C) n N :
  List.length (m_points m) = N -> (n <= N)%nat -> good_attrs N (m_attrs m) ->
  NoDup (map w_name ws) -> Forall (fun w => w_name w <> lit "points") ws ->
  exists l', create_attributes_loop (map w_name ws) (map (fun _ => 1) ws)
      (map (fun _ => rv F (ndv F)) ws) (vals_upto F ws n) n (seq 0 n) m = Ok (set_attr_list m l') /\
    good_attrs N l' /\
    (forall p, find_attr p l' = None <-> find_attr p (m_attrs m) = None /\ wfind p ws = None) /\
    forall p v, (v < N)%nat -> val l' p v =
      match wfind p ws with
      | Some w => if (v <? n)%nat then Some [rv F (w_val w v)]
                  else match val (m_attrs m) p v with Some x => Some x | None => Some nd end
      | None => val (m_attrs m) p v
      end.
Proof.
  revert m. induction ws as [|w ws IH]; intros m Hp HN Hg Hn Hw.
  - exists (m_attrs m). cbn [map create_attributes_loop]. split; [destruct m; reflexivity|]. split; [assumption|].
    split; [|reflexivity]. intros p. cbn. tauto.
  - cbn [map] in Hn. inversion Hn as [|? ? Hn1 Hn2]; subst. inversion Hw as [|? ? Hw1 Hw2]; subst.
    destruct Hg as [G1 G2].
    cbn [map vals_upto create_attributes_loop]. change (repeat ?x (Z.to_nat 1)) with [x].
    unfold find_or_create. rewrite (proj2 (beq_neq (w_name w) (lit "points"))) by assumption.
    assert (X : exists a, (match find_attr (w_name w) (m_attrs m) with
        | Some a => if a_type a =? attr_type 1 then Ok a else Throw ExData
        | None => Ok (mkAttr (attr_type 1) nd (map (fun _ => nd) (m_points m))) end) = Ok a /\
        a_type a = 1 /\ a_def a = nd /\ List.length (a_vals a) = List.length (m_points m) /\
        forall v, (v < List.length (m_points m))%nat -> nth_error (a_vals a) v =
          match val (m_attrs m) (w_name w) v with Some x => Some x | None => Some nd end).
    { unfold val. destruct (find_attr (w_name w) (m_attrs m)) as [a|] eqn:E.
      - apply find_attr_some in E. rewrite Forall_forall in G2. destruct (G2 _ E) as [A1 [A2 A3]]. cbn [snd] in *.
        rewrite A1. exists a. repeat split; auto. intros v Hv. destruct (nth_error (a_vals a) v) eqn:En; [reflexivity|].
        apply nth_error_None in En. lia.
      - eexists. split; [reflexivity|]. split; [reflexivity|]. split; [reflexivity|]. split; [apply map_length|]. cbn [a_vals]. intros v Hv.
        rewrite nth_error_map. destruct (nth_error (m_points m) v) eqn:En; [reflexivity|].
        apply nth_error_None in En. lia. }
    destruct X as [a [Ea [A1 [A2 [A3 A4]]]]]. change [rv F (ndv F)] with nd. cbv zeta. rewrite Ea. cbn [bind].
    rewrite (fill_attr_rows _ 1 nd (fun i => [rv F (w_val w i)])); try lia.
    2:{ intros k Hk. now apply attr_row_one. }
    cbn [bind firstn app Nat.add].
    set (a' := mkAttr (a_type a) (a_def a) (map (fun i => [rv F (w_val w i)]) (seq 0 n) ++ skipn n (a_vals a))).
    change (map (fun w0 => map (fun i => rv F (w_val w0 i)) (seq 0 n)) ws) with (vals_upto F ws n).
    assert (La : List.length (a_vals a') = List.length (m_points m)).
    { cbn [a' a_vals]. rewrite app_length, map_length, seq_length, skipn_length. lia. }
    destruct (IH (set_attr_list m (replace_attr (w_name w) a' (m_attrs m)))) as [l' [L1 [L2 [L4 L3]]]]; auto.
    { split; cbn [set_attr_list m_attrs]; [now apply replace_attr_nodup|].
      clear IH. clear -G2 A1 A2 La. induction G2 as [|[k b] r H1 H2 IH]; cbn [replace_attr].
      - constructor; [|constructor]. cbn. auto.
      - destruct (beq k (w_name w)); constructor; auto. }
    exists l'. split; [exact L1|]. split; [exact L2|]. split.
    { intros p. rewrite L4. cbn [set_attr_list m_attrs]. rewrite find_attr_replace. unfold wfind. cbn [find].
      destruct (beq (w_name w) p); intuition discriminate. }
    intros p v Hv. rewrite L3 by exact Hv.
    cbn [set_attr_list m_attrs]. unfold wfind at 2. cbn [find].
    assert (V : val (replace_attr (w_name w) a' (m_attrs m)) p v =
      if beq (w_name w) p then (if (v <? n)%nat then Some [rv F (w_val w v)]
         else match val (m_attrs m) p v with Some x => Some x | None => Some nd end) else val (m_attrs m) p v).
    { unfold val at 1. rewrite find_attr_replace. destruct (beq (w_name w) p) eqn:E; [|reflexivity].
      apply beq_eq in E. subst p. cbn [a' a_vals].
      rewrite (nth_over (fun i => [rv F (w_val w i)])) by lia. rewrite A4 by exact Hv. reflexivity. }
    destruct (beq (w_name w) p) eqn:E.
    + apply beq_eq in E. subst p.
      assert (wfind (w_name w) ws = None) as ->.
      { unfold wfind. clear -Hn1. induction ws as [|x r IH]; [reflexivity|]. cbn [map In] in Hn1. cbn [find].
        rewrite (proj2 (beq_neq _ _)) by tauto. apply IH. tauto. }
      exact V.
    + fold (wfind p ws). rewrite V. reflexivity.
Qed.

Lemma good_empty {C} : good_attrs 0 (m_attrs (@empty_mesh F C)).
Proof. split; constructor. Qed.
Lemma good_extend n k l : good_attrs n l ->
  good_attrs (n + k) (map (fun na => (fst na, mkAttr (a_type (snd na)) (a_def (snd na))
            (a_vals (snd na) ++ repeat (a_def (snd na)) k))) l) /\
  forall p v, (v < n + k)%nat ->
    val (map (fun na => (fst na, mkAttr (a_type (snd na)) (a_def (snd na))
            (a_vals (snd na) ++ repeat (a_def (snd na)) k))) l) p v =
    if (v <? n)%nat then val l p v else match find_attr p l with Some _ => Some nd | None => None end.
Proof.
  intros [H1 H2]. split.
  - split; [now rewrite map_map|]. apply Forall_map. eapply Forall_impl; [|exact H2]. cbn.
    intros [q a] [A1 [A2 A3]]. cbn in *. rewrite app_length, repeat_length. repeat split; auto.
  - intros p v Hv. unfold val, find_attr. clear H1. induction H2 as [|[q a] r [A1 [A2 A3]] H2 IH]; cbn [map find fst snd].
    + now destruct (v <? n)%nat.
    + destruct (beq q p); [|exact IH]. cbn [option_map snd a_vals] in *. destruct (v <? n)%nat eqn:E.
      * apply Nat.ltb_lt in E. now rewrite nth_error_app1 by lia.
      * apply Nat.ltb_ge in E. rewrite nth_error_app2, A2 by lia.
        assert (L : (v - List.length (a_vals a) < k)%nat) by lia. revert L. generalize (v - List.length (a_vals a))%nat.
        clear. induction k as [|k IH]; intros i Hi; [lia|]. destruct i; cbn; [reflexivity|]. apply IH. lia.
Qed.

Lemma find_attr_extend {V} (g : bytes * attr V -> attr V) l p :
  find_attr p (map (fun na => (fst na, g na)) l) = None <-> find_attr p l = None.
Proof.
  unfold find_attr. induction l as [|[q a] r IH]; [reflexivity|]. cbn [map find fst].
  destruct (beq q p); [cbn; intuition discriminate|exact IH].
Qed.

(** Effect of adding a saved object with attributes [ws] and [n] vertices. *)
Definition stepped {C} (ws : list (wattr F)) (n : nat) (m m' : mesh F C) : Prop :=
  let N := List.length (m_points m) in
  good_attrs (N + n) (m_attrs m') /\
  (forall p, find_attr p (m_attrs m') = None <-> find_attr p (m_attrs m) = None /\ wfind p ws = None) /\
  forall p v, (v < N + n)%nat -> val (m_attrs m') p v =
    match wfind p ws with
    | Some w => if (v <? n)%nat then Some [rv F (w_val w v)]
                else match val (m_attrs m) p v with Some x => Some x | None => Some nd end
    | None => if (v <? N)%nat then val (m_attrs m) p v
              else match find_attr p (m_attrs m) with Some _ => Some nd | None => None end
    end.
Lemma stepped_of {C} ws (m k : mesh F C) ps N n :
  List.length (m_points m) = N -> List.length ps = n -> good_attrs N (m_attrs m) ->
  m_attrs k = m_attrs (create_points ps m) -> m_points k = m_points m ++ ps ->
  NoDup (map w_name ws) -> Forall (fun w => w_name w <> lit "points") ws ->
  exists l', create_attributes_loop (map w_name ws) (map (fun _ => 1) ws)
      (map (fun _ => rv F (ndv F)) ws) (vals_upto F ws n) n (seq 0 n) k = Ok (set_attr_list k l') /\
    stepped ws n m (set_attr_list k l').
Proof.
  intros H1 H2 Hg Ea Ep Hn Hw. rewrite create_points_spec in Ea. cbn [m_attrs] in Ea.
  destruct (good_extend N (List.length ps) _ Hg) as [G1 G2].
  rewrite <- Ea in G1, G2. rewrite H2 in G1, G2.
  destruct (create_attributes_over ws k n (N + n)) as [l' [L1 [L2 [L4 L3]]]]; auto; try lia.
  { rewrite Ep, app_length. lia. }
  exists l'. split; [exact L1|]. unfold stepped. cbn [set_attr_list m_attrs]. rewrite H1. split; [exact L2|].
  split; [intros p; rewrite L4, Ea; rewrite (find_attr_extend (fun na => _)); reflexivity|].
  intros p v Hv. rewrite L3, G2 by exact Hv. destruct (wfind p ws) as [w|]; [|reflexivity].
  destruct (v <? n)%nat; [reflexivity|]. destruct (v <? N)%nat eqn:E; [reflexivity|]. apply Nat.ltb_ge in E.
  unfold val. destruct (find_attr p (m_attrs m)) as [a|] eqn:Ef; [|reflexivity].
  apply find_attr_some in Ef. destruct Hg as [_ Hg]. rewrite Forall_forall in Hg. destruct (Hg _ Ef) as [_ [_ A]].
  cbn [snd] in A. assert (nth_error (a_vals a) v = None) as -> by (apply nth_error_None; lia). reflexivity.
Qed.

(** ** Surfaces *)
Lemma build_surface_step (m : mesh F tri) w : names_ok w -> triangles_ok w ->
  good_attrs (List.length (m_points m)) (m_attrs m) ->
  Z.of_nat (List.length (m_points m)) + Z.of_nat (List.length (wm_points w)) < two32 ->
  exists m', build_surface m (parsed_ts F w) = Ok m' /\
    List.length (m_points m') = (List.length (m_points m) + List.length (wm_points w))%nat /\
    stepped (filter exported (wm_attrs w)) (List.length (wm_points w)) m m'.
Proof.
  intros [_ [Hc Hn]] [_ Ht] Hg Hs. unfold build_surface, parsed_ts. cbn [t_points t_name t_triangles t_props t_values].
  cbv zeta. set (tris := if nb_vertices m =? 0 then _ else _).
  assert (T : Forall (tri_in (nb_vertices (create_points (map (rp F) (wm_points w)) (set_name (option_map normalise (wm_name w)) m)))) tris).
  { destruct (create_points_fields F (map (rp F) (wm_points w)) (set_name (option_map normalise (wm_name w)) m)) as [_ [P2 _]].
    destruct (set_name_fields F (option_map normalise (wm_name w)) m) as [N1 _].
    unfold nb_vertices at 1. rewrite P2, N1. unfold lenz. rewrite app_length, map_length.
    assert (X : Forall (tri_in (Z.of_nat (List.length (wm_points w)))) (wm_cells w)).
    { apply Forall_forall. intros [[a b] c] Hi. exact (Ht a b c Hi). }
    subst tris. destruct (nb_vertices m =? 0); [|apply Forall_map]; (eapply Forall_impl; [|exact X]);
      intros [[a b] c] Hi; unfold tri_in, shift_tri in *; [lia|].
    unfold nb_vertices, lenz. rewrite !add32_small by lia. lia. }
  rewrite create_triangles by exact T. clear T. cbn [bind]. unfold create_attributes. rewrite reread_names, reread_esizes, reread_ndv, map_length.
  destruct (stepped_of (filter exported (wm_attrs w)) (set_name (option_map normalise (wm_name w)) m)
    (mkMesh (m_name (create_points (map (rp F) (wm_points w)) (set_name (option_map normalise (wm_name w)) m)))
        (m_points (create_points (map (rp F) (wm_points w)) (set_name (option_map normalise (wm_name w)) m)))
        (m_cells (create_points (map (rp F) (wm_points w)) (set_name (option_map normalise (wm_name w)) m)) ++ tris)
        (m_attrs (create_points (map (rp F) (wm_points w)) (set_name (option_map normalise (wm_name w)) m))))
    (map (rp F) (wm_points w)) (List.length (m_points m)) (List.length (wm_points w))) as [l' [L1 L2]].
  - now destruct (set_name_fields F (option_map normalise (wm_name w)) m) as [-> _].
  - apply map_length.
  - now destruct (set_name_fields F (option_map normalise (wm_name w)) m) as [_ [_ [-> _]]].
  - reflexivity.
  - cbn [m_points]. now destruct (create_points_fields F (map (rp F) (wm_points w)) (set_name (option_map normalise (wm_name w)) m)) as [_ [-> _]].
  - now apply filter_nodup.
  - apply filter_points.
  - eexists. split; [exact L1|].
    destruct (set_name_fields F (option_map normalise (wm_name w)) m) as [N1 [_ [N3 _]]].
    unfold stepped in L2. rewrite N1, N3 in L2. split; [|exact L2]. cbn [set_attr_list m_points].
    destruct (create_points_fields F (map (rp F) (wm_points w)) (set_name (option_map normalise (wm_name w)) m)) as [_ [-> _]].
    now rewrite app_length, map_length, N1.
Qed.
Lemma build_point_set_step (m : mesh F unit) w : names_ok w -> 
  good_attrs (List.length (m_points m)) (m_attrs m) ->
  exists m', build_point_set m (parsed_vs F w) = Ok m' /\
    List.length (m_points m') = (List.length (m_points m) + List.length (wm_points w))%nat /\
    stepped (filter exported (wm_attrs w)) (List.length (wm_points w)) m m'.
Proof.
  intros [_ [Hc Hn]] Hg. unfold build_point_set, parsed_vs. cbn [v_points v_name v_props v_values].
  cbv zeta. unfold create_attributes. rewrite reread_names, reread_esizes, reread_ndv, map_length.
  destruct (stepped_of (filter exported (wm_attrs w)) (set_name (option_map normalise (wm_name w)) m)
    (create_points (map (rp F) (wm_points w)) (set_name (option_map normalise (wm_name w)) m))
    (map (rp F) (wm_points w)) (List.length (m_points m)) (List.length (wm_points w))) as [l' [L1 L2]].
  - now destruct (set_name_fields F (option_map normalise (wm_name w)) m) as [-> _].
  - apply map_length.
  - now destruct (set_name_fields F (option_map normalise (wm_name w)) m) as [_ [_ [-> _]]].
  - reflexivity.
  - now destruct (create_points_fields F (map (rp F) (wm_points w)) (set_name (option_map normalise (wm_name w)) m)) as [_ [-> _]].
  - now apply filter_nodup.
  - apply filter_points.
  - eexists. split; [exact L1|].
    destruct (set_name_fields F (option_map normalise (wm_name w)) m) as [N1 [_ [N3 _]]].
    unfold stepped in L2. rewrite N1, N3 in L2. split; [|exact L2]. cbn [set_attr_list m_points].
    destruct (create_points_fields F (map (rp F) (wm_points w)) (set_name (option_map normalise (wm_name w)) m)) as [_ [-> _]].
    now rewrite app_length, map_length, N1.
Qed.

(** Values after a sequence of saved objects, given from the last one to the first one. *)
Fixpoint sizes {C} (rs : list (wmesh F C)) : nat :=
  match rs with [] => 0 | w :: r => List.length (wm_points w) + sizes r end%nat.
Fixpoint rule {C} (rs : list (wmesh F C)) (p : bytes) (v : nat) : option (list (num F)) :=
  match rs with
  | [] => None
  | w :: r =>
      match wfind p (filter exported (wm_attrs w)) with
      | Some a => if (v <? List.length (wm_points w))%nat then Some [rv F (w_val a v)]
                  else match rule r p v with Some x => Some x | None => Some nd end
      | None => rule r p v
      end
  end.
Definition follows {C} (rs : list (wmesh F C)) (m : mesh F C) : Prop :=
  List.length (m_points m) = sizes rs /\ good_attrs (sizes rs) (m_attrs m) /\
  (forall p v, (v < sizes rs)%nat -> val (m_attrs m) p v = rule rs p v) /\
  (forall p v, (sizes rs <= v)%nat -> rule rs p v = match find_attr p (m_attrs m) with Some _ => Some nd | None => None end).
Lemma follows_step {C} rs w (m m' : mesh F C) : follows rs m ->
  List.length (m_points m') = (List.length (m_points m) + List.length (wm_points w))%nat ->
  stepped (filter exported (wm_attrs w)) (List.length (wm_points w)) m m' -> follows (w :: rs) m'.
Proof.
  intros [H1 [H2 [H3 H4]]] Hl [S1 [S3 S2]]. rewrite H1 in *. unfold follows. cbn [sizes].
  rewrite (Nat.add_comm (List.length (wm_points w))). split; [assumption|]. split; [assumption|].
  assert (V : forall p v, (v < sizes rs + List.length (wm_points w))%nat -> val (m_attrs m') p v = rule (w :: rs) p v).
  { intros p v Hv. rewrite S2 by exact Hv. cbn [rule]. destruct (wfind p _) as [a|].
    - destruct (v <? List.length (wm_points w))%nat eqn:E; [reflexivity|].
      destruct (v <? sizes rs)%nat eqn:E2.
      + apply Nat.ltb_lt in E2. now rewrite H3.
      + apply Nat.ltb_ge in E2. rewrite H4 by assumption. unfold val.
        destruct (find_attr p (m_attrs m)) as [b|] eqn:Ef; [|reflexivity]. apply find_attr_some in Ef.
        destruct H2 as [_ H2]. rewrite Forall_forall in H2. destruct (H2 _ Ef) as [_ [_ A]]. cbn [snd] in A.
        assert (nth_error (a_vals b) v = None) as -> by (apply nth_error_None; lia). reflexivity.
    - destruct (v <? sizes rs)%nat eqn:E2.
      + apply Nat.ltb_lt in E2. now rewrite H3.
      + apply Nat.ltb_ge in E2. now rewrite H4. }
  split; [exact V|]. intros p v Hv. cbn [rule].
  specialize (S3 p). rewrite (proj2 (Nat.ltb_ge _ _)) by lia. rewrite H4 by lia.
  destruct (wfind p _) as [a|]; destruct (find_attr p (m_attrs m)) as [b|]; destruct (find_attr p (m_attrs m')) as [c|];
    try reflexivity; destruct S3 as [S3 S4]; exfalso; try (now discriminate (proj1 (S3 eq_refl)));
    try (now discriminate (proj2 (S3 eq_refl))); now discriminate (S4 (conj eq_refl eq_refl)).
Qed.

(** ** Reading the objects one after the other *)
Lemma read_ts_objects ws : num_ok F -> Forall names_ok ws -> Forall triangles_ok ws ->
  forall rs (m : mesh F tri) f b, follows rs m ->
  Z.of_nat (sizes rs + sizes ws) < two32 -> (List.length ws < f)%nat ->
  exists m', read_ts_loop f m (mkStream (List.concat (map ts_lines ws)) b) = Ok m' /\ follows (rev ws ++ rs) m'.
Proof.
  intros HF. induction ws as [|w ws IH]; intros Hn Ht rs m f b Hf Hs Hl; (destruct f as [|f]; [cbn in Hl; lia|]).
  - exists m. split; [|assumption]. reflexivity.
  - inversion Hn as [|? ? N1 N2]; inversion Ht as [|? ? T1 T2]; subst. cbn [map List.concat read_ts_loop sizes List.length] in *.
    rewrite (read_tsurf_written F HF w _ b) by now apply writable_of. cbn [bind].
    destruct (build_surface_step m w N1 T1) as [m1 [M1 [M2 M3]]].
    { destruct Hf as [-> [Hg _]]. exact Hg. }
    { destruct Hf as [-> _]. lia. }
    rewrite M1. cbn [bind]. pose proof (follows_step rs w m m1 Hf M2 M3) as Hf1.
    destruct (IH N2 T2 (w :: rs) m1 f b Hf1) as [m' [R1 R2]]; [cbn [sizes]; unfold tri in *; lia|lia|].
    exists m'. split; [exact R1|]. cbn [rev]. rewrite <- app_assoc. exact R2.
Qed.
Definition set_ok (w : wmesh F unit) : Prop := names_ok w /\ wm_cells w = [] /\ wm_points w <> [].
Lemma read_vs_objects ws : num_ok F -> Forall set_ok ws ->
  forall rs (m : mesh F unit) f b, follows rs m -> (List.length ws < f)%nat ->
  exists m', read_vs_loop f m (mkStream (List.concat (map vs_lines ws)) b) = Ok m' /\ follows (rev ws ++ rs) m'.
Proof.
  intros HF. induction ws as [|w ws IH]; intros Hn rs m f b Hf Hl; (destruct f as [|f]; [cbn in Hl; lia|]).
  - exists m. split; [|assumption]. reflexivity.
  - inversion Hn as [|? ? [N1 [N3 N4]] N2]; subst. cbn [map List.concat read_vs_loop List.length] in *.
    rewrite (read_vs_points_written F HF w _ b);
      [|destruct N1 as [Q1 [Q2 Q3]]; constructor; assumption|assumption]. cbn [bind].
    destruct (build_point_set_step m w N1) as [m1 [M1 [M2 M3]]].
    { destruct Hf as [-> [Hg _]]. exact Hg. }
    rewrite M1. cbn [bind]. pose proof (follows_step rs w m m1 Hf M2 M3) as Hf1.
    destruct (IH N2 (w :: rs) m1 f b Hf1) as [m' [R1 R2]]; [lia|].
    exists m'. split; [exact R1|]. cbn [rev]. rewrite <- app_assoc. exact R2.
Qed.
Lemma follows_empty {C} : follows [] (@empty_mesh F C).
Proof. split; [reflexivity|]. split; [apply good_empty|]. split; intros p v H; [cbn in H; lia|reflexivity]. Qed.

(** ** The rule, read from the first object to the last one *)
Definition carries {C} (w : wmesh F C) (p : bytes) (a : wattr F) : Prop :=
  In a (wm_attrs w) /\ saved a /\ w_name a = p.
Lemma wfind_carries {C} (w : wmesh F C) p a : names_ok w -> carries w p a ->
  wfind p (filter exported (wm_attrs w)) = Some a.
Proof.
  intros [_ [_ Hn]] [H1 [H2 H3]]. apply filter_nodup in Hn.
  assert (Hi : In a (filter exported (wm_attrs w))) by (apply filter_In; split; [assumption|now apply exported_saved]).
  unfold wfind. induction (filter exported (wm_attrs w)) as [|x r IH]; [contradiction|]. cbn [find map] in *.
  inversion Hn as [|? ? D1 D2]; subst. destruct Hi as [->|Hi]; [now rewrite beq_refl|].
  rewrite (proj2 (beq_neq _ _)); [now apply IH|]. intros E. apply D1. rewrite E. now apply in_map.
Qed.
Lemma wfind_some {C} (w : wmesh F C) p a : wfind p (filter exported (wm_attrs w)) = Some a -> carries w p a.
Proof.
  unfold wfind. intros H. apply find_some in H as [H E]. apply beq_eq in E. apply filter_In in H as [H1 H2].
  split; [assumption|]. split; [now apply exported_saved|assumption].
Qed.
Lemma rule_none {C} (rs : list (wmesh F C)) p v : (forall w a, In w rs -> ~ carries w p a) -> rule rs p v = None.
Proof.
  induction rs as [|w r IH]; intros H; [reflexivity|]. cbn [rule].
  destruct (wfind p _) as [a|] eqn:E; [exfalso; apply (H w a); [now left|now apply wfind_some]|].
  apply IH. intros w' a Hi. apply H. now right.
Qed.
Lemma rule_default {C} (rs : list (wmesh F C)) p v w0 a0 : Forall names_ok rs -> In w0 rs -> carries w0 p a0 ->
  (forall w a, In w rs -> carries w p a -> (List.length (wm_points w) <= v)%nat) -> rule rs p v = Some nd.
Proof.
  intros Hn Hi Hc. induction rs as [|w r IH]; intros H; [contradiction|]. cbn [rule].
  inversion Hn as [|? ? N1 N2]; subst.
  assert (X : rule r p v = Some nd \/ rule r p v = None).
  { clear -H. assert (G : forall w' a, In w' r -> carries w' p a -> (List.length (wm_points w') <= v)%nat)
      by (intros w' a Hi; apply H; now right). clear H.
    induction r as [|x r IH]; [now right|]. cbn [rule]. assert (K := IH (fun w' a Hi => G w' a (or_intror Hi))).
    destruct (wfind p _) as [a|] eqn:E; [|exact K]. left.
    rewrite (proj2 (Nat.ltb_ge _ _)) by (apply (G x a); [now left|now apply wfind_some]).
    destruct K as [-> | ->]; reflexivity. }
  destruct (wfind p _) as [a|] eqn:E.
  - rewrite (proj2 (Nat.ltb_ge _ _)) by (apply (H w a); [now left|now apply wfind_some]).
    destruct X as [-> | ->]; reflexivity.
  - destruct Hi as [->|Hi]; [rewrite (wfind_carries _ _ _ N1 Hc) in E; discriminate|].
    apply IH; auto. intros w' a Hi'. apply H. now right.
Qed.
Lemma rule_last {C} (after before : list (wmesh F C)) w a p v : names_ok w -> carries w p a ->
  (v < List.length (wm_points w))%nat ->
  (forall w' a', In w' after -> carries w' p a' -> (List.length (wm_points w') <= v)%nat) ->
  rule (after ++ w :: before) p v = Some [rv F (w_val a v)].
Proof.
  intros Hn Hc Hv. induction after as [|x r IH]; intros H; cbn [app rule].
  - rewrite (wfind_carries _ _ _ Hn Hc). now rewrite (proj2 (Nat.ltb_lt _ _)).
  - rewrite IH by (intros w' a' Hi; apply H; now right). destruct (wfind p _) as [b|] eqn:E; [|reflexivity].
    rewrite (proj2 (Nat.ltb_ge _ _)) by (apply (H x b); [now left|now apply wfind_some]). reflexivity.
Qed.
End Over.
