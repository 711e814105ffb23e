(** * Facts about the texts of the discrete features of the FEM writer. *)
From Coq Require Import ZArith List Lia Bool Ascii String Permutation.
From Verif Require Import Base Text TextFacts FemModel FemSpec FemFacts FemFeatures.
Import ListNotations.
Local Open Scope string_scope.
Local Open Scope list_scope.
Local Open Scope Z_scope.

(** ** Lines *)
Lemma lines_unlines ls t : Forall is_line ls -> text_lines (unlines ls ++ t) = ls ++ text_lines t.
Proof.
  induction 1 as [|l r Hl Hr IH]; [reflexivity|]. cbn [unlines app]. rewrite <- app_assoc. cbn [app].
  unfold text_lines in *. rewrite cut_line by assumption. destruct (cut [] (unlines r ++ t)) as [x b]. cbn [fst app] in *.
  now rewrite IH.
Qed.
Fixpoint add_last (e : bytes) (ls : list bytes) : list bytes :=
  match ls with
  | [] => [e]
  | [l] => [l ++ e]
  | l :: r => l :: add_last e r
  end.
Lemma sep_lines_end e ls t : sep_lines ls ++ e ++ LF :: t = unlines (add_last e ls) ++ t.
Proof.
  induction ls as [|l r IH]; [cbn; now rewrite <- app_assoc|]. destruct r as [|l2 r].
  - cbn. now rewrite <- !app_assoc.
  - change (sep_lines (l :: l2 :: r)) with (l ++ LF :: sep_lines (l2 :: r)).
    change (add_last e (l :: l2 :: r)) with (l :: add_last e (l2 :: r)).
    cbn [unlines]. rewrite <- !app_assoc. cbn [app]. now rewrite IH.
Qed.
Lemma add_last_line e ls : is_line e -> Forall is_line ls -> Forall is_line (add_last e ls).
Proof.
  intros He. induction 1 as [|l r Hl Hr IH]; [constructor; auto|]. destruct r.
  - constructor; [now apply is_line_app|constructor].
  - constructor; assumption.
Qed.
Lemma add_last_nil ls : ls <> [] -> add_last [] ls = ls.
Proof.
  induction ls as [|l r IH]; intros H; [contradiction|]. destruct r as [|l2 r].
  - cbn. now rewrite app_nil_r.
  - change (l :: add_last [] (l2 :: r) = l :: l2 :: r). f_equal. apply IH. discriminate.
Qed.
Lemma count_add_last (p : bytes -> bool) e ls : p e = false ->
  Forall (fun l => p l = true /\ p (l ++ e) = true) ls ->
  List.length (filter p (add_last e ls)) = List.length ls.
Proof.
  intros He. induction 1 as [|l r [Hl Hle] Hr IH]; [cbn; now rewrite He|]. destruct r as [|l2 r].
  - cbn [add_last filter]. rewrite Hle. reflexivity.
  - change (add_last e (l :: l2 :: r)) with (l :: add_last e (l2 :: r)). cbn [filter]. rewrite Hl. cbn [List.length].
    now rewrite IH.
Qed.
(** Number of lines that satisfy [p] in a section with a 2D part and a 1D part. *)
Lemma section_count (p : bytes -> bool) h1 h2 ls2 ls1 t2 :
  is_line h1 -> is_line h2 -> is_line t2 -> Forall is_line ls2 -> Forall is_line ls1 ->
  p h1 = false -> p h2 = false -> p t2 = false -> p [] = false -> p CDATA_END = false ->
  Forall (fun l => p l = true) ls2 -> Forall (fun l => p l = true /\ p (l ++ CDATA_END) = true) ls1 ->
  List.length (filter p (text_lines (line h1 ++ line h2 ++ sep_lines ls2 ++ [LF] ++ sep_lines ls1 ++ line CDATA_END ++ line t2)))
  = (List.length ls2 + List.length ls1)%nat.
Proof.
  intros L1 L2 L3 L4 L5 P1 P2 P3 P4 P5 F2 F1.
  assert (Lc : is_line CDATA_END) by (apply lineb_ok; reflexivity).
  assert (E : line h1 ++ line h2 ++ sep_lines ls2 ++ [LF] ++ sep_lines ls1 ++ line CDATA_END ++ line t2
    = unlines ([h1; h2] ++ add_last [] ls2 ++ add_last CDATA_END ls1 ++ [t2]) ++ []).
  { unfold line. rewrite <- !app_assoc. cbn [app].
    pose proof (sep_lines_end [] ls2 (sep_lines ls1 ++ CDATA_END ++ LF :: t2 ++ [LF])) as E2. cbn [app] in E2.
    rewrite E2, (sep_lines_end CDATA_END ls1). cbn [unlines]. rewrite !unlines_app. cbn [unlines].
    now rewrite app_nil_r. }
  rewrite E, lines_unlines.
  - unfold text_lines. cbn [cut fst]. rewrite app_nil_r. cbn [app filter]. rewrite P1, P2.
    rewrite !filter_app, !app_length. rewrite (count_add_last p CDATA_END ls1) by assumption.
    cbn [filter]. rewrite P3. cbn [List.length].
    assert (List.length (filter p (add_last [] ls2)) = List.length ls2); [|lia].
    apply count_add_last; [assumption|]. eapply Forall_impl; [|exact F2]. intros l Hl. now rewrite app_nil_r.
  - apply Forall_app. split; [repeat constructor; assumption|]. apply Forall_app. split.
    + apply add_last_line; [intros []|assumption].
    + apply Forall_app. split; [now apply add_last_line|]. repeat constructor. assumption.
Qed.

(** ** Signatures and incidence *)
Section Sections.
Context (V : FemVal).
Lemma repeat_Forall {A} (P : A -> Prop) x n : P x -> Forall P (repeat x n).
Proof. intros H. induction n; constructor; auto. Qed.
Lemma flat_one {A B} (f : A -> list B) gs : (gs = [] \/ exists g, gs = [g]) ->
  flat_map f gs = match gs with g :: _ => f g | [] => [] end.
Proof. intros [->|[g ->]]; cbn; auto. now rewrite app_nil_r. Qed.
Definition head_features (gs : list (group V)) : list (list Z * Z) :=
  match gs with g :: _ => g_features V g | [] => [] end.
Definition at_most_one {A} (gs : list A) : Prop := gs = [] \/ exists g, gs = [g].
Lemma quoted_line t : is_line t -> is_line (quoted t).
Proof.
  intros H. unfold quoted. apply is_line_cons; [discriminate|]. apply is_line_app; [assumption|].
  apply is_line_cons; [discriminate|]. intros [].
Qed.
Lemma show_line z : 0 <= z -> is_line (show z).
Proof. intros H. apply token_line. now apply show_token. Qed.
Lemma header_line kw n : 0 <= n -> is_line kw -> is_line (add_spaces 4 ++ kw ++ quoted (show n) ++ lit ">").
Proof.
  intros Hn Hk. apply is_line_app; [apply lineb_ok; reflexivity|]. apply is_line_app; [assumption|].
  apply is_line_app; [apply quoted_line; now apply show_line|apply lineb_ok; reflexivity].
Qed.
Lemma fold_add32_nonneg gs : forall a, 0 <= a -> 0 <= fold_left (fun n g => add32 n (Z.of_nat (List.length (g_features V g)))) gs a.
Proof.
  induction gs as [|g gs IH]; intros a H; cbn [fold_left]; [assumption|]. apply IH. apply wrap32_range.
Qed.
Lemma nb_features_nonneg f : 0 <= nb_features V f.
Proof. unfold nb_features. apply fold_add32_nonneg. lia. Qed.
Lemma signatures_count f : at_most_one (f2d V f) -> at_most_one (f1d V f) ->
  List.length (filter (fun l => starts_with l " c") (text_lines (write_signatures V f)))
  = (List.length (head_features (f2d V f)) + List.length (head_features (f1d V f)))%nat.
Proof.
  intros H2 H1. unfold write_signatures. rewrite !flat_one by assumption.
  replace (match f2d V f with [] => [] | g :: _ => sep_lines (signature_lines V "c2d3,darcy" g) end)
    with (sep_lines (repeat (SP :: lit "c2d3,darcy") (List.length (head_features (f2d V f))))) by (destruct (f2d V f); reflexivity).
  replace (match f1d V f with [] => [] | g :: _ => sep_lines (signature_lines V "c1d2,darcy" g) end)
    with (sep_lines (repeat (SP :: lit "c1d2,darcy") (List.length (head_features (f1d V f))))) by (destruct (f1d V f); reflexivity).
  rewrite section_count; [now rewrite !repeat_length|..]; try reflexivity; try (apply lineb_ok; reflexivity).
  - apply header_line; [apply nb_features_nonneg|apply lineb_ok; reflexivity].
  - apply repeat_Forall. apply lineb_ok. reflexivity.
  - apply repeat_Forall. apply lineb_ok. reflexivity.
  - apply repeat_Forall. reflexivity.
  - apply repeat_Forall. split; reflexivity.
Qed.
Lemma incidence_starts ft r : is_incidence (incidence_line ft ++ r) = true.
Proof.
  unfold incidence_line. destruct (show_spec (Z.of_nat (List.length (fst ft))) ltac:(lia)) as [N [D _]].
  destruct (show _) as [|c t] eqn:E; [contradiction|]. pose proof (Forall_inv D) as Hc. cbn beta in Hc.
  unfold is_incidence. cbn. rewrite Hc. reflexivity.
Qed.
Lemma incidence_is_line ft : Forall (fun n => 0 <= n) (fst ft) -> is_line (incidence_line ft).
Proof.
  intros H. unfold incidence_line. apply is_line_app; [apply lineb_ok; reflexivity|].
  apply is_line_app; [apply show_line; lia|]. induction H as [|n l Hn Hl IH]; [intros []|].
  cbn [flat_map]. apply is_line_app; [|assumption]. apply is_line_app; [apply lineb_ok; reflexivity|now apply show_line].
Qed.
Lemma incidence_count f : at_most_one (f2d V f) -> at_most_one (f1d V f) ->
  Forall (fun ft => Forall (fun n => 0 <= n) (fst ft)) (head_features (f2d V f) ++ head_features (f1d V f)) ->
  List.length (filter is_incidence (text_lines (write_incidence V f)))
  = (List.length (head_features (f2d V f)) + List.length (head_features (f1d V f)))%nat.
Proof.
  intros H2 H1 Hn. apply Forall_app in Hn as [N2 N1]. unfold write_incidence. rewrite !flat_one by assumption.
  replace (match f2d V f with [] => [] | g :: _ => sep_lines (map incidence_line (g_features V g)) end)
    with (sep_lines (map incidence_line (head_features (f2d V f)))) by (destruct (f2d V f); reflexivity).
  replace (match f1d V f with [] => [] | g :: _ => sep_lines (map incidence_line (g_features V g)) end)
    with (sep_lines (map incidence_line (head_features (f1d V f)))) by (destruct (f1d V f); reflexivity).
  rewrite section_count; [now rewrite !map_length|..]; try reflexivity; try (apply lineb_ok; reflexivity).
  - apply header_line; [apply nb_features_nonneg|apply lineb_ok; reflexivity].
  - apply Forall_map. eapply Forall_impl; [|exact N2]. intros; now apply incidence_is_line.
  - apply Forall_map. eapply Forall_impl; [|exact N1]. intros; now apply incidence_is_line.
  - apply Forall_map. apply Forall_forall. intros ft _. rewrite <- (app_nil_r (incidence_line ft)). apply incidence_starts.
  - apply Forall_map. apply Forall_forall. intros ft _. split; [|apply incidence_starts].
    rewrite <- (app_nil_r (incidence_line ft)). apply incidence_starts.
Qed.

(** ** Materials *)
Definition chunks_of (ids : list Z) : list bytes := format_range_chunks ids CHUNK_SIZE.
Definition entries (m : list (val V * list Z)) : list bytes :=
  flat_map (fun e => map (material_entry V (fst e)) (chunks_of (snd e))) m.
Fixpoint count_lf (t : bytes) : nat :=
  match t with [] => O | c :: r => if Ascii.eqb c LF then S (count_lf r) else count_lf r end.
Lemma count_lf_app a b : count_lf (a ++ b) = (count_lf a + count_lf b)%nat.
Proof. induction a as [|c a IH]; cbn [app count_lf]; auto. destruct (Ascii.eqb c LF); lia. Qed.
Lemma count_lf_line a : is_line a -> count_lf a = O.
Proof.
  induction a as [|c a IH]; intros H; cbn [count_lf]; [reflexivity|].
  rewrite (proj2 (Ascii.eqb_neq c LF)) by (intros ->; apply H; now left). apply IH. intros Hi. apply H. now right.
Qed.
Lemma sep_lines_count ls : Forall is_line ls -> count_lf (sep_lines ls) = (List.length ls - 1)%nat.
Proof.
  induction 1 as [|l r Hl Hr IH]; [reflexivity|]. destruct r as [|l2 r].
  - cbn. now rewrite count_lf_line.
  - change (sep_lines (l :: l2 :: r)) with (l ++ LF :: sep_lines (l2 :: r)).
    rewrite count_lf_app, count_lf_line by assumption. cbn [count_lf]. rewrite Ascii.eqb_refl, IH. cbn [List.length]. lia.
Qed.
Lemma chunk_lines ids : Forall (fun e => 1 <= e < two32) ids -> Forall is_line (chunks_of ids).
Proof.
  unfold chunks_of, format_range_chunks. destruct ids as [|e r]; [constructor|]. intros H.
  assert (A : forall st s p, 0 <= s -> 0 <= p -> is_line (fst st) /\ Forall is_line (snd st) ->
    is_line (fst (append_value CHUNK_SIZE st s p)) /\ Forall is_line (snd (append_value CHUNK_SIZE st s p))).
  { intros [c rs] s p Hs Hp [H1 H2]. cbn [fst snd] in *. unfold append_value.
    pose proof (token_line _ (range_text_token s p Hs Hp)) as Ht.
    destruct (CHUNK_SIZE <? _); cbn [fst snd].
    - split; [assumption|]. apply Forall_app. split; [assumption|]. constructor; [assumption|constructor].
    - destruct c; cbn [fst snd]; [split; assumption|]. split; [|assumption].
      apply is_line_app; [assumption|]. apply is_line_cons; [discriminate|assumption]. }
  assert (B : forall es s p st, 0 <= s -> 0 <= p -> Forall (fun e => 1 <= e < two32) es -> is_line (fst st) /\ Forall is_line (snd st) ->
    is_line (fst (range_loop CHUNK_SIZE es s p st)) /\ Forall is_line (snd (range_loop CHUNK_SIZE es s p st))).
  { induction es as [|x es IH]; intros s p st Hs Hp He Hst; cbn [range_loop]; [now apply A|].
    pose proof (Forall_inv He). pose proof (Forall_inv_tail He). cbn beta in *.
    destruct (x =? _); apply IH; auto; lia. }
  pose proof (Forall_inv H). pose proof (Forall_inv_tail H). cbn beta in *.
  destruct (B r e e ([], []) ltac:(lia) ltac:(lia) ltac:(assumption)) as [B1 B2].
  { split; [intros []|constructor]. }
  destruct (range_loop CHUNK_SIZE r e e ([], [])) as [c rs]. cbn [fst snd] in *.
  destruct c; [assumption|]. apply Forall_app. split; [assumption|]. constructor; [assumption|constructor].
Qed.
Lemma chunks_nonempty ids : Forall (fun e => 1 <= e < two32) ids -> ids <> [] -> chunks_of ids <> [].
Proof. intros H N E. apply N. rewrite <- (chunks_elements ids CHUNK_SIZE H). unfold chunks_of in E. now rewrite E. Qed.
Lemma material_entry_line v c : femval_ok V -> is_line c -> is_line (material_entry V v c).
Proof.
  intros HV Hc. unfold material_entry. apply is_line_app; [apply lineb_ok; reflexivity|].
  apply is_line_app; [apply token_line; apply (vos_token V HV)|]. apply is_line_cons; [discriminate|assumption].
Qed.
Definition m_ok (m : list (val V * list Z)) : Prop :=
  Forall (fun e => snd e <> [] /\ Forall (fun i => 1 <= i < two32) (snd e)) m.
Lemma entries_lines m : femval_ok V -> m_ok m -> Forall is_line (entries m).
Proof.
  intros HV. induction 1 as [|e m [He1 He2] Hm IH]; [constructor|]. cbn [entries flat_map]. apply Forall_app. split; [|exact IH].
  apply Forall_map. eapply Forall_impl; [|apply (chunk_lines _ He2)]. intros c Hc. now apply material_entry_line.
Qed.
Lemma material_chunks_count last v cs : femval_ok V -> Forall is_line cs ->
  count_lf (material_chunks V last v cs) = if last then O else (List.length cs - 1)%nat.
Proof.
  intros HV. induction 1 as [|c r Hc Hr IH]; [now destruct last|]. destruct r as [|c2 r].
  - cbn [material_chunks List.length]. rewrite count_lf_line by now apply material_entry_line. now destruct last.
  - change (material_chunks V last v (c :: c2 :: r)) with
      (material_entry V v c ++ (if last then [] else [LF]) ++ material_chunks V last v (c2 :: r)).
    rewrite !count_lf_app, IH, count_lf_line by now apply material_entry_line.
    destruct last; cbn [count_lf List.length]; [reflexivity|]. rewrite Ascii.eqb_refl. lia.
Qed.
Lemma material_value_count last v ids : femval_ok V -> Forall (fun i => 1 <= i < two32) ids -> ids <> [] ->
  count_lf (material_value V last v ids) =
  if last then O else if (List.length (chunks_of ids) =? 1)%nat then 1%nat else (List.length (chunks_of ids) - 1)%nat.
Proof.
  intros HV Hi Hn. unfold material_value. pose proof (chunk_lines ids Hi) as L. fold (chunks_of ids).
  destruct (chunks_of ids) as [|c [|c2 r]] eqn:E.
  - now apply chunks_nonempty in E.
  - rewrite count_lf_app, count_lf_line by (apply material_entry_line; [assumption|now apply Forall_inv in L]).
    destruct last; cbn [count_lf List.length]; [reflexivity|]. rewrite Ascii.eqb_refl. reflexivity.
  - rewrite material_chunks_count by assumption. destruct last; [reflexivity|]. reflexivity.
Qed.
(** Number of ends of line actually written: one per single-chunk value but the last, and the
    number of chunks minus one for the others. *)
Lemma material_values_single m : m_ok m -> Forall (fun e => List.length (chunks_of (snd e)) = 1%nat) m ->
  material_values V m = sep_lines (entries m).
Proof.
  induction 1 as [|[v ids] m [He1 He2] Hm IH]; intros S; [reflexivity|].
  pose proof (Forall_inv S) as S1. pose proof (Forall_inv_tail S) as S2. cbn [snd] in *.
  cbn [material_values entries flat_map fst snd]. unfold material_value. fold (chunks_of ids).
  destruct (chunks_of ids) as [|c [|]] eqn:E; try discriminate. cbn [map app].
  destruct m as [|[v2 i2] m].
  - cbn. now rewrite !app_nil_r.
  - rewrite <- app_assoc. cbn [app]. rewrite IH by assumption.
    fold (entries ((v2, i2) :: m)).
    assert (N : entries ((v2, i2) :: m) <> []).
    { pose proof (Forall_inv S2) as S3. cbn [snd] in S3. cbn [entries flat_map fst snd].
      destruct (chunks_of i2); [discriminate|]. discriminate. }
    destruct (entries ((v2, i2) :: m)) as [|x r]; [contradiction|]. reflexivity.
Qed.
Definition cnt (m : list (val V * list Z)) : nat := count_lf (material_values V m).
Lemma cnt_cons v ids m : femval_ok V -> m_ok ((v, ids) :: m) ->
  (cnt ((v, ids) :: m) = (match m with [] => O | _ => if (List.length (chunks_of ids) =? 1)%nat then 1 else List.length (chunks_of ids) - 1 end) + cnt m)%nat.
Proof.
  intros HV H. pose proof (Forall_inv H) as [H1 H2]. cbn [snd] in *. unfold cnt. cbn [material_values].
  rewrite count_lf_app, material_value_count by assumption. destruct m; reflexivity.
Qed.
Lemma entries_cons v ids m : List.length (entries ((v, ids) :: m)) = (List.length (chunks_of ids) + List.length (entries m))%nat.
Proof. cbn [entries flat_map fst snd]. now rewrite app_length, map_length. Qed.
Lemma cnt_le m : femval_ok V -> m_ok m -> m <> [] -> (cnt m < List.length (entries m))%nat.
Proof.
  intros HV Hm. induction m as [|[v ids] m IH]; intros N; [contradiction|]. rewrite cnt_cons by assumption.
  rewrite entries_cons. pose proof (Forall_inv Hm) as [H1 H2]. cbn [snd] in *. pose proof (chunks_nonempty ids H2 H1) as Nc.
  assert (1 <= List.length (chunks_of ids))%nat by (destruct (chunks_of ids); [contradiction|cbn; lia]).
  destruct m as [|q m]; [cbn; lia|]. specialize (IH (Forall_inv_tail Hm) ltac:(discriminate)).
  destruct (List.length (chunks_of ids) =? 1)%nat eqn:E; [apply Nat.eqb_eq in E|]; lia.
Qed.
Lemma cnt_lt m : femval_ok V -> m_ok m -> (exists e, In e m /\ List.length (chunks_of (snd e)) <> 1%nat) ->
  (S (cnt m) < List.length (entries m))%nat.
Proof.
  intros HV Hm. induction m as [|[v ids] m IH]; intros [e [He Hl]]; [contradiction|]. rewrite cnt_cons by assumption.
  rewrite entries_cons. pose proof (Forall_inv Hm) as [H1 H2]. cbn [snd] in *. pose proof (chunks_nonempty ids H2 H1) as Nc.
  assert (1 <= List.length (chunks_of ids))%nat by (destruct (chunks_of ids); [contradiction|cbn; lia]).
  destruct He as [<-|He].
  - cbn [snd] in Hl. rewrite (proj2 (Nat.eqb_neq _ _) Hl). destruct m as [|q m]; [cbn; lia|].
    pose proof (cnt_le (q :: m) HV (Forall_inv_tail Hm) ltac:(discriminate)). lia.
  - specialize (IH (Forall_inv_tail Hm) (ex_intro _ e (conj He Hl))). destruct m as [|q m]; [destruct He|].
    destruct (List.length (chunks_of ids) =? 1)%nat eqn:E; [apply Nat.eqb_eq in E|]; lia.
Qed.
Lemma material_values_iff m : femval_ok V -> m_ok m ->
  (material_values V m = sep_lines (entries m) <-> Forall (fun e => List.length (chunks_of (snd e)) = 1%nat) m).
Proof.
  intros HV Hm. split; [|now apply material_values_single]. intros E. apply Forall_forall. intros e He.
  destruct (Nat.eq_dec (List.length (chunks_of (snd e))) 1) as [|N]; [assumption|]. exfalso.
  pose proof (cnt_lt m HV Hm (ex_intro _ e (conj He N))) as L. unfold cnt in L.
  rewrite E, sep_lines_count in L by now apply entries_lines. lia.
Qed.

(** ** Merging the tables of the 2D and 1D features *)
Definition expand (m : table (K := val V)) : list (Z * val V) := flat_map (fun e => map (fun i => (i, fst e)) (snd e)) m.
Lemma append_push k e es m : contains_key (veqb V) k m = true ->
  append_on V k (e :: es) m = append_on V k es (push_on (veqb V) k e m).
Proof.
  induction m as [|[k' es'] r IH]; cbn [append_on push_on]; [reflexivity|]. unfold contains_key. cbn [existsb fst].
  destruct (veqb V k k') eqn:E; cbn [orb]; intros H.
  - cbn [append_on]. rewrite E. now rewrite <- app_assoc.
  - cbn [append_on]. rewrite E. f_equal. now apply IH.
Qed.
Lemma contains_push k e m : contains_key (veqb V) k (push_on (veqb V) k e m) = contains_key (veqb V) k m.
Proof.
  unfold contains_key. induction m as [|[k' es'] r IH]; cbn [push_on existsb fst]; [reflexivity|].
  destruct (veqb V k k') eqn:E; cbn [existsb fst]; rewrite E; [reflexivity|]. exact IH.
Qed.
Lemma append_nil k m : append_on V k [] m = m.
Proof. induction m as [|[k' es'] r IH]; cbn [append_on]; [reflexivity|]. destruct (veqb V k k'); [now rewrite app_nil_r|now rewrite IH]. Qed.
Lemma append_many k es m : contains_key (veqb V) k m = true ->
  append_on V k es m = fold_left (fun m e => table_add (veqb V) k e m) es m.
Proof.
  revert m. induction es as [|e es IH]; intros m H; [apply append_nil|]. cbn [fold_left]. rewrite append_push by assumption.
  unfold table_add at 2. rewrite H. apply IH. now rewrite contains_push.
Qed.
Lemma append_on_app k es m1 m2 : contains_key (veqb V) k m1 = false ->
  append_on V k es (m1 ++ m2) = m1 ++ append_on V k es m2.
Proof.
  unfold contains_key. induction m1 as [|[k' es'] r IH]; intros H; [reflexivity|]. cbn [existsb fst] in H.
  apply orb_false_iff in H as [H1 H2]. cbn [app append_on]. rewrite H1. f_equal. now apply IH.
Qed.
Lemma combine_table m1 m2 : femval_ok V -> Forall (fun e => snd e <> []) m2 ->
  combine_maps V m1 m2 = fold_left (fun m p => table_add (veqb V) (snd p) (fst p) m) (expand (viter V _ m2)) m1.
Proof.
  intros HV H. unfold combine_maps.
  assert (H' : Forall (fun e => snd e <> []) (viter V _ m2)).
  { rewrite Forall_forall in *. intros e He. apply H. eapply Permutation_in; [apply (viter_perm V HV)|exact He]. }
  clear H. revert m1 H'. generalize (viter V (list Z) m2). clear m2. intros m2.
  induction m2 as [|[k es] r IH]; intros m1 H; [reflexivity|]. pose proof (Forall_inv H) as H1. pose proof (Forall_inv_tail H) as H2.
  cbn [fst snd] in *. unfold expand. cbn [flat_map fst snd fold_left]. fold (expand r). rewrite fold_left_app. rewrite <- IH by assumption. f_equal.
  assert (E : forall es m, fold_left (fun m p => table_add (veqb V) (snd p) (fst p) m) (map (fun i => (i, k)) es) m
              = fold_left (fun m e => table_add (veqb V) k e m) es m).
  { induction es0 as [|e es0 IHe]; intros m; cbn; auto. }
  rewrite E. destruct (contains_key (veqb V) k m1) eqn:C; [now apply append_many|].
  destruct es as [|e es]; [contradiction|]. cbn [fold_left]. unfold table_add at 2. rewrite C.
  rewrite <- append_many.
  - rewrite append_on_app by assumption. cbn [append_on]. now rewrite (veqb_refl V HV).
  - unfold contains_key. rewrite existsb_app. cbn [existsb fst]. now rewrite (veqb_refl V HV), orb_true_r.
Qed.
Lemma combine_table_of ps1 m2 : femval_ok V -> Forall (fun e => snd e <> []) m2 ->
  combine_maps V (table_of (veqb V) ps1) m2 = table_of (veqb V) (ps1 ++ expand (viter V _ m2)).
Proof. intros HV H. rewrite combine_table by assumption. unfold table_of. now rewrite fold_left_app. Qed.
End Sections.
