(** * Which value a vertex carries after loading a file made of several saved objects (C09). *)
From Coq Require Import ZArith List Lia Bool Ascii String.
From Verif Require Import Base Text TextFacts GocadModel MeshModel TsModel Spec GocadFacts TsFacts CrlfFacts
  StreamFacts MultiFacts MultiMore ExNum ExCheck PropsTsVs PropsMulti MultiAttrs.
Import ListNotations.
Local Open Scope string_scope.
Local Open Scope list_scope.
Local Open Scope Z_scope.

(** The object [w] is saved with a property [p], the values of which are those of [a]. *)
Definition has_property {F C} (w : wmesh F C) (p : bytes) (a : wattr F) : Prop :=
  In a (wm_attrs w) /\ saved a /\ w_name a = p.
(** The value found at vertex [v] of the whole mesh for property [p]: the one of vertex [v] of the LAST object
    that has the property and more than [v] vertices; the no-data value when there is none; no attribute at all
    when no object has the property. *)
Definition value_rule {F C} (ws : list (wmesh F C)) (m : mesh F C) : Prop :=
  forall p v, (v < List.length (m_points m))%nat ->
    (forall before w after a, ws = before ++ w :: after -> has_property w p a ->
       (v < List.length (wm_points w))%nat ->
       (forall w' a', In w' after -> has_property w' p a' -> (List.length (wm_points w') <= v)%nat) ->
       exists x, reread_value F (w_val a v) x /\ attr_value m p v = Some [x]) /\
    ((exists w a, In w ws /\ has_property w p a) ->
     (forall w a, In w ws -> has_property w p a -> (List.length (wm_points w) <= v)%nat) ->
     exists x, reread_value F (ndv F) x /\ attr_value m p v = Some [x]) /\
    ((forall w a, In w ws -> ~ has_property w p a) -> attr_value m p v = None).

Lemma rule_value {F C} (ws : list (wmesh F C)) (m : mesh F C) : num_ok F -> Forall names_ok ws ->
  follows F (rev ws ++ []) m -> value_rule ws m.
Proof.
  intros HF Hn. rewrite app_nil_r. intros [H1 [H2 [H3 H4]]] p v Hv. rewrite H1 in Hv.
  specialize (H3 p v Hv). change (attr_value m p v) with (val F (m_attrs m) p v). rewrite H3. split; [|split].
  - intros before w after a E Ha Hw Hl. exists (rv F (w_val a v)). split; [now apply rv_ok|].
    rewrite E, rev_app_distr. cbn [rev]. rewrite <- app_assoc. cbn [app]. apply rule_last; auto.
    + rewrite E in Hn. apply Forall_app in Hn as [_ Hn]. now apply Forall_inv in Hn.
    + intros w' a' Hi. apply (Hl w' a'). now apply in_rev.
  - intros [w [a [Hi Ha]]] Hl. exists (rv F (ndv F)). split; [now apply rv_ok|].
    apply (rule_default F (rev ws) p v w a); auto.
    + apply Forall_rev. exact Hn.
    + now apply -> in_rev.
    + intros w' a' Hi'. apply Hl. now apply in_rev.
  - intros Hl. apply rule_none. intros w a Hi. apply Hl. now apply in_rev.
Qed.
Lemma concat_longer {A B} (f : A -> list B) l : (forall a, f a <> []) -> (List.length l <= List.length (List.concat (map f l)))%nat.
Proof.
  intros H. induction l as [|a r IH]; [reflexivity|]. cbn [map List.concat List.length]. rewrite app_length.
  specialize (H a). destruct (f a); [congruence|]. cbn [List.length]. lia.
Qed.
Lemma written_concat {A} (f : A -> list bytes) l : List.concat (map (fun a => unlines (f a)) l) = unlines (List.concat (map f l)).
Proof. induction l as [|a r IH]; [reflexivity|]. cbn [map List.concat]. now rewrite IH, unlines_app. Qed.
Lemma concat_lines {A} (f : A -> list bytes) (P : A -> Prop) l : (forall a, P a -> Forall is_line (f a)) -> Forall P l ->
  Forall is_line (List.concat (map f l)).
Proof. intros H. induction 1; cbn [map List.concat]; [constructor|]. apply Forall_app. auto. Qed.

Lemma sizes_rev F C (ws : list (wmesh F C)) : sizes F (rev ws) = sizes F ws.
Proof.
  assert (G : forall (a b : list (wmesh F C)), sizes F (a ++ b) = (sizes F a + sizes F b)%nat).
  { induction a as [|x a IH]; intros b; [reflexivity|]. cbn [app sizes]. rewrite IH. lia. }
  induction ws as [|w r IH]; [reflexivity|]. cbn [rev sizes]. rewrite G, IH. cbn [sizes]. lia.
Qed.

(** C09, the exact rule for files made of any number of saved surfaces. *)
Theorem C09_surfaces_rule :
  forall (F : Num) (ws : list (wmesh F tri)),
    num_ok F -> Forall names_ok ws -> Forall triangles_ok ws ->
    fold_right (fun w n => Z.of_nat (List.length (wm_points w)) + n) 0 ws < 2 ^ 32 ->
    exists m, read_ts F (List.concat (map write_ts ws)) = Ok m /\
      List.length (m_points m) = fold_right (fun w n => List.length (wm_points w) + n)%nat 0%nat ws /\
      value_rule ws m.
Proof.
  intros F ws HF Hn Ht Hs. unfold write_ts. rewrite written_concat. unfold read_ts.
  rewrite open_unlines.
  2:{ apply (concat_lines _ (fun w => names_ok w /\ triangles_ok w)).
      - intros w [N T]. apply ts_lines_lines; [assumption|]. now apply writable_of.
      - rewrite Forall_forall in *. auto. }
  cbn [pending].
  assert (Z1 : sizes F ws = fold_right (fun w n => List.length (wm_points w) + n)%nat 0%nat ws).
  { clear. induction ws as [|w r IH]; [reflexivity|]. cbn. now rewrite IH. }
  destruct (read_ts_objects F ws HF Hn Ht [] empty_mesh (S (List.length (List.concat (map ts_lines ws)))) true) as [m [R1 R2]].
  - apply follows_empty.
  - assert (Z2 : Z.of_nat (sizes F ws) = fold_right (fun w n => Z.of_nat (List.length (wm_points w)) + n) 0 ws).
    { clear. induction ws as [|w r IH]; [reflexivity|]. cbn [fold_right sizes]. lia. }
    cbn [sizes Nat.add]. rewrite <- Z2 in Hs. exact Hs.
  - pose proof (concat_longer ts_lines ws ltac:(discriminate)). unfold tri in *; lia.
  - exists m. split; [exact R1|]. split; [|now apply rule_value].
    destruct R2 as [R2 _]. etransitivity; [exact R2|]. etransitivity; [|exact Z1]. rewrite app_nil_r. apply sizes_rev.
Qed.
Print Assumptions C09_surfaces_rule.

(** The same for files made of any number of saved point sets (each with at least one point). *)
Theorem C09_point_sets_rule :
  forall (F : Num) (ws : list (wmesh F unit)),
    num_ok F -> Forall (fun w => names_ok w /\ wm_cells w = [] /\ wm_points w <> []) ws ->
    exists m, read_vs F (List.concat (map write_vs ws)) = Ok m /\
      List.length (m_points m) = fold_right (fun w n => List.length (wm_points w) + n)%nat 0%nat ws /\
      value_rule ws m.
Proof.
  intros F ws HF Hn. unfold write_vs. rewrite written_concat. unfold read_vs.
  rewrite open_unlines.
  2:{ apply (concat_lines _ (fun w => names_ok w /\ wm_cells w = [] /\ wm_points w <> [])); [|assumption].
      intros w [[Q1 [Q2 Q3]] [N T]]. apply vs_lines_lines; [assumption|]. now constructor. }
  cbn [pending].
  assert (Z1 : sizes F ws = fold_right (fun w n => List.length (wm_points w) + n)%nat 0%nat ws).
  { clear. induction ws as [|w r IH]; [reflexivity|]. cbn. now rewrite IH. }
  destruct (read_vs_objects F ws HF Hn [] empty_mesh (S (List.length (List.concat (map vs_lines ws)))) true) as [m [R1 R2]].
  - apply follows_empty.
  - pose proof (concat_longer vs_lines ws ltac:(discriminate)). lia.
  - exists m. split; [exact R1|]. split.
    2:{ apply rule_value; auto. eapply Forall_impl; [|exact Hn]. now intros w [? _]. }
    destruct R2 as [R2 _]. etransitivity; [exact R2|]. etransitivity; [|exact Z1]. rewrite app_nil_r. apply sizes_rev.
Qed.
Print Assumptions C09_point_sets_rule.

(** Three saved surfaces; the second one has no property. *)
Example C09_rule_instance :
  Forall names_ok [ex_surface; ex_bare; ex_small] /\ Forall triangles_ok [ex_surface; ex_bare; ex_small] /\
  mesh_is zzz_eqb (read_ts ExNum (List.concat (map write_ts [ex_surface; ex_bare; ex_small]))) (Some (lit "small"))
    [(0, 0, 0); (10, 0, -5); (0, 10, 7); (10, 10, 1); (5, 5, 5); (6, 5, 5); (5, 6, 5); (5, 5, 5); (6, 5, 5); (5, 6, 5)]
    [(0, 1, 2); (2, 1, 3); (6, 4, 5); (9, 7, 8)]
    [(lit "my prop", [[100]; [101]; [102]; [9]; [-99999]; [-99999]; [-99999]; [-99999]; [-99999]; [-99999]])] = true.
Proof.
  destruct C04_C05_instance as [_ [Hn [Ht _]]].
  assert (Bn : names_ok ex_bare) by (split; [discriminate|]; split; constructor).
  assert (Bt : triangles_ok ex_bare).
  { split; [simpl; lia|]. intros a b c [H|[]]. injection H as <- <- <-. simpl. lia. }
  split; [|split].
  - repeat (apply Forall_cons; [first [assumption|apply ex_small_names]|]). constructor.
  - repeat (apply Forall_cons; [first [assumption|apply ex_small_triangles]|]). constructor.
  - vm_compute. reflexivity.
Qed.
