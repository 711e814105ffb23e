(** * Property columns and attributes of the .lso reader. *)
From Coq Require Import ZArith List Lia Bool Ascii String Permutation.
From Verif Require Import Base Text TextFacts GocadModel MeshModel TsModel Spec GocadFacts TsFacts LsoModel LsoFacts LsoRead LsoRound LsoFile LsoWhole LsoTrip StreamFacts LsoRel LsoEnds PropsGocad.
Import ListNotations.
Local Open Scope string_scope.
Local Open Scope list_scope.
Local Open Scope Z_scope.

(** Headers whose lists agree. *)
Record good_header {V} (h : PropHeader V) : Prop := {
  gh_sizes : List.length (p_esizes h) = List.length (p_names h);
  gh_ndv : List.length (p_ndv h) = List.length (p_names h);
  gh_range : Forall (fun e => 1 <= e < 256) (p_esizes h);
  gh_names : NoDup (p_names h)
}.

Section Columns.
Context {F : Num}.
(** The values of the properties on a line, from token [pos] on: one list for each property. *)
Definition line_values (h : PropHeader (num F)) (pos : nat) (line : bytes) (row : list (list (num F))) : Prop :=
  exists xs, numbers F (firstn (Z.to_nat (sum (p_esizes h))) (skipn pos (string_split line))) = Some xs /\
    List.length xs = Z.to_nat (sum (p_esizes h)) /\ row = chunks (p_esizes h) xs.
Definition column (rows : list (list (list (num F)))) (j : nat) : list (num F) := flat_map (fun row => nth j row []) rows.
Definition columns (n : nat) (rows : list (list (list (num F)))) : list (list (num F)) := map (column rows) (seq 0 n).

Lemma chunks_length {A} sizes (l : list A) : List.length (chunks sizes l) = List.length sizes.
Proof. revert l. induction sizes as [|e es IH]; intros l; cbn [chunks List.length]; auto. Qed.
Lemma sum_nonneg sizes : Forall (fun e => 1 <= e < 256) sizes -> 0 <= sum sizes.
Proof. unfold sum. induction 1; cbn [fold_right]; lia. Qed.
Lemma chunk_length {A} sizes (l : list A) j e : Forall (fun e => 1 <= e < 256) sizes -> List.length l = Z.to_nat (sum sizes) ->
  nth_error sizes j = Some e -> List.length (nth j (chunks sizes l) []) = Z.to_nat e.
Proof.
  intros H. revert l j. induction H as [|x xs Hx H IH]; intros l [|j] L E; try discriminate; cbn [nth_error] in E; cbn [chunks nth].
  - assert (x = e) as -> by congruence. rewrite firstn_length, L. pose proof (sum_nonneg xs H). unfold sum in *. cbn [fold_right]. lia.
  - apply IH; [|assumption]. rewrite skipn_length, L. pose proof (sum_nonneg xs H). unfold sum in *. cbn [fold_right]. lia.
Qed.
Lemma combine_columns n rows row : List.length row = n ->
  map (fun p => fst p ++ snd p) (combine (columns n rows) row) = columns n (rows ++ [row]).
Proof.
  intros L. unfold columns. apply nth_ext with (d := []) (d' := []).
  - rewrite !map_length, combine_length, !map_length, seq_length. lia.
  - intros i Hi. rewrite map_length, combine_length, map_length, seq_length in Hi. replace (Nat.min n (List.length row)) with n in Hi by lia.
    rewrite (nth_indep _ [] (fst ([] : list (num F), [] : list (num F)) ++ snd ([] : list (num F), [] : list (num F)))) by (rewrite map_length, combine_length, map_length, seq_length; lia).
    rewrite map_nth with (f := fun p => fst p ++ snd p). rewrite combine_nth by (rewrite map_length, seq_length; lia). cbn [fst snd].
    rewrite !(nth_indep (map _ (seq 0 n)) [] (column [] 0)) by (rewrite map_length, seq_length; lia).
    assert (X : forall R, nth i (map (column R) (seq 0 n)) (column [] 0) = column R i).
    { intros R. change (column [] 0) with (@nil (num F)). rewrite (nth_indep _ [] (column R 0%nat)) by (rewrite map_length, seq_length; lia). rewrite map_nth. f_equal. now rewrite seq_nth. }
    rewrite !X. unfold column. rewrite flat_map_app. cbn [flat_map]. now rewrite app_nil_r.
Qed.
Lemma read_properties_columns h rows tokens line pos vals : good_header h -> tokens = string_split line ->
  read_properties F (p_names h) (p_esizes h) (columns (List.length (p_names h)) rows) tokens pos = Ok vals ->
  exists row, line_values h pos line row /\ vals = columns (List.length (p_names h)) (rows ++ [row]).
Proof.
  intros G -> E. pose proof (C17_property_rows F (p_names h) (p_esizes h) (columns (List.length (p_names h)) rows) (string_split line) pos) as H.
  cbn zeta in H. unfold columns in H at 1. rewrite map_length, seq_length in H.
  specialize (H (gh_sizes h G) eq_refl). unfold line_values.
  set (need := Z.to_nat (sum (p_esizes h))) in *.
  destruct (numbers F (firstn need (skipn pos (string_split line)))) as [xs|] eqn:EN.
  - destruct (Nat.leb need (List.length (skipn pos (string_split line)))) eqn:EL.
    + rewrite E in H. apply Nat.leb_le in EL. exists (chunks (p_esizes h) xs). split.
      * exists xs. split; [reflexivity|]. split; [|reflexivity]. apply numbers_length in EN. rewrite EN, firstn_length. lia.
      * rewrite combine_columns in H; [|rewrite chunks_length; apply (gh_sizes h G)].
        assert (Ok vals = Ok (columns (List.length (p_names h)) (rows ++ [chunks (p_esizes h) xs]))) by (apply H; eapply Forall_impl; [|exact (gh_range h G)]; cbn beta; lia). congruence.
    + rewrite E in H. exfalso. assert (Ok vals = Throw ExData) by (apply H; eapply Forall_impl; [|exact (gh_range h G)]; cbn beta; lia). discriminate.
  - rewrite E in H. exfalso. assert (Ok vals = Throw ExData) by (apply H; eapply Forall_impl; [|exact (gh_range h G)]; cbn beta; lia). discriminate.
Qed.
Lemma nth_column n rows j : (j < n)%nat -> nth_error (columns n rows) j = Some (column rows j).
Proof.
  intros H. unfold columns. rewrite nth_error_map, (nth_error_nth' (seq 0 n) 0%nat) by now rewrite seq_length. cbn [option_map]. now rewrite seq_nth.
Qed.

(** ** The vertices *)
Definition value_pos (line : bytes) : nat := if starts_with line "SHARED" then 3%nat else 5%nat.
(** Position given by vertex line number [v] among the positions [pts]. *)
Definition vertex_point (crs : CRS) (pts : list (point F)) (line : bytes) (v : Z) : Prop :=
  if starts_with line "SHARED" then
    exists a, tok_index 1 (string_split line) 2 = Ok a /\ 0 <= a < v /\ nthz pts v = nthz pts a
  else exists p, vrtx_point F crs (string_split line) = Ok p /\ nthz pts v = Some p.
Record vertices_of (crs : CRS) (h : PropHeader (num F)) (ls : list bytes) (sv : SolidV F) (rows : list (list (list (num F)))) : Prop := {
  vo_len : lenz (sv_points sv) = lenz ls;
  vo_points : forall v line, nthz ls v = Some line -> vertex_point crs (sv_points sv) line v;
  vo_rows : Forall2 (fun line row => line_values h (value_pos line) line row) ls rows;
  vo_vals : sv_vals sv = columns (List.length (p_names h)) rows
}.
Lemma Forall2_snoc {A B} (R : A -> B -> Prop) a b x y : Forall2 R a b -> R x y -> Forall2 R (a ++ [x]) (b ++ [y]).
Proof. intros H Hx. apply Forall2_app; [assumption|]. constructor; [assumption|constructor]. Qed.
Lemma vertex_point_grows crs pts line v p : 0 <= v < lenz pts -> vertex_point crs pts line v -> vertex_point crs (pts ++ [p]) line v.
Proof.
  intros R. unfold vertex_point. destruct (starts_with line "SHARED").
  - intros [a [E [Ra H]]]. exists a. split; [assumption|]. split; [assumption|].
    destruct (nthz_in_range pts v) as [x Hx]; [assumption|]. rewrite (nthz_app_l pts [p] v x Hx). symmetry. apply nthz_app_l. congruence.
  - intros [q [E H]]. exists q. split; [assumption|]. now apply nthz_app_l.
Qed.
Lemma vertex_step crs h ls sv rows line sv' : good_header h -> vertices_of crs h ls sv rows -> lso_vertex F crs h sv line = Ok sv' ->
  exists row, vertices_of crs h (ls ++ [line]) sv' (rows ++ [row]).
Proof.
  intros G [L P R V] E. unfold lso_vertex in E. rewrite V in E.
  assert (X : exists p vals, lenz (sv_points sv') = lenz (sv_points sv) + 1 /\ sv_points sv' = sv_points sv ++ [p] /\ sv_vals sv' = vals /\
     read_properties F (p_names h) (p_esizes h) (columns (List.length (p_names h)) rows) (string_split line) (value_pos line) = Ok vals /\
     vertex_point crs (sv_points sv') line (lenz (sv_points sv))).
  { unfold value_pos, vertex_point. destruct (starts_with line "SHARED").
    - apply bind_ok in E. destruct E as [u [Eu E]]. apply bind_ok in E. destruct E as [p [Ep E]]. apply bind_ok in E. destruct E as [vals [Ev E]].
      apply bind_ok in E. destruct E as [l [_ E]]. apply bind_ok in E. destruct E as [mp [_ E]].
      assert (sv' = mkSolidV (sv_points sv ++ [p]) (sv_uid sv ++ [u]) mp vals) as -> by congruence. cbn [sv_points sv_vals]. exists p, vals.
      rewrite lenz_app. split; [reflexivity|]. split; [reflexivity|]. split; [reflexivity|]. split; [assumption|].
      apply idxz_ok in Ep. exists u. split; [assumption|]. split; [now apply nthz_range in Ep|]. rewrite (nthz_app_l _ [p] u p Ep). apply nthz_snoc. auto.
    - apply bind_ok in E. destruct E as [p [Ep E]]. apply bind_ok in E. destruct E as [vals [Ev E]].
      assert (sv' = mkSolidV (sv_points sv ++ [p]) (sv_uid sv ++ [lenz (sv_map sv)]) (sv_map sv ++ [[lenz (sv_points sv)]]) vals) as -> by congruence.
      cbn [sv_points sv_vals]. exists p, vals. rewrite lenz_app. split; [reflexivity|]. split; [reflexivity|]. split; [reflexivity|]. split; [assumption|].
      exists p. split; [assumption|]. apply nthz_snoc. auto. }
  destruct X as [p [vals [E1 [E2 [E3 [E4 E5]]]]]]. destruct (read_properties_columns h rows _ line _ vals G eq_refl E4) as [row [HR HV]]. exists row. split.
  - rewrite E1, L, lenz_app. reflexivity.
  - intros v ln Hv. apply nthz_snoc in Hv. destruct Hv as [Hv|[-> ->]].
    + rewrite E2. apply vertex_point_grows; [|now apply P]. apply nthz_range in Hv. lia.
    + rewrite <- L. exact E5.
  - now apply Forall2_snoc.
  - now rewrite E3.
Qed.
Lemma vertices_steps crs h ls : good_header h -> forall done sv rows line b sv' l' s', vertices_of crs h done sv rows ->
  lso_vertices F crs h sv line b ls = Ok (sv', l', s') ->
  exists new rest rows', line :: ls = new ++ rest /\ vertices_of crs h (done ++ new) sv' rows' /\
     (b = true -> reached rest l' s').
Proof.
  intros G. induction ls as [|l ls IH]; intros done sv rows line b sv' l' s' V E; cbn [lso_vertices] in E;
    apply bind_ok in E; destruct E as [sv1 [E1 E]]; destruct (vertex_step _ _ _ _ _ _ _ G V E1) as [row V1].
  - assert (sv' = sv1 /\ s' = mkStream [] false) as [-> ->] by (split; congruence). exists [line], [], (rows ++ [row]). split; [reflexivity|]. split; [assumption|]. intros ->. right. split; [congruence|reflexivity].
  - destruct (contains l "VRTX").
    + destruct (IH _ _ _ _ _ _ _ _ V1 E) as [new [rest [rows' [EN [V2 HS]]]]]. exists (line :: new), rest, rows'. split; [cbn [app]; now rewrite EN|].
      rewrite <- app_assoc in V2. split; [exact V2|exact HS].
    + assert (sv' = sv1 /\ l' = l /\ s' = mkStream ls b) as [-> [-> ->]] by (repeat split; congruence). exists [line], (l :: ls), (rows ++ [row]). split; [reflexivity|]. split; [assumption|].
      intros ->. left. split; [reflexivity|apply suffix_refl].
Qed.

(** ** The tetrahedra: the TETRA line and the line after it. *)
Definition tetra_of (n : Z) (ll : bytes * bytes) (e : quad * bytes) : Prop :=
  let '(a, b, c, d) := fst e in
  let tokens := string_split (fst ll) in
  tok_index 1 tokens 1 = Ok a /\ tok_index 1 tokens 2 = Ok b /\ tok_index 1 tokens 3 = Ok c /\ tok_index 1 tokens 4 = Ok d /\
  quad_in n (fst e) /\ nth_error (string_split (snd ll)) 2 = Some (snd e).
Record tetras_of (n : Z) (h : PropHeader (num F)) (tl : list (bytes * bytes)) (st : SolidT F) (rows : list (list (list (num F)))) : Prop := {
  to_tets : Forall2 (tetra_of n) tl (st_tets st);
  to_rows : Forall2 (fun ll row => line_values h 5 (fst ll) row) tl rows;
  to_vals : st_vals st = columns (List.length (p_names h)) rows
}.
Lemma tetra_step n h tl (st : SolidT F) rows l1 l2 st' : good_header h -> tetras_of n h tl st rows -> lso_tetra F h n st l1 l2 = Ok st' ->
  exists row, tetras_of n h (tl ++ [(l1, l2)]) st' (rows ++ [row]).
Proof.
  intros G [T R V] E. unfold lso_tetra in E. rewrite V in E. apply bind_ok in E. destruct E as [a [Ea E]]. apply bind_ok in E. destruct E as [b [Eb E]].
  apply bind_ok in E. destruct E as [c [Ec E]]. apply bind_ok in E. destruct E as [d [Ed E]].
  pose proof (tok_index_nonneg _ _ _ _ Ea). pose proof (tok_index_nonneg _ _ _ _ Eb). pose proof (tok_index_nonneg _ _ _ _ Ec). pose proof (tok_index_nonneg _ _ _ _ Ed).
  destruct ((a <? n) && (b <? n) && (c <? n) && (d <? n)) eqn:B; [|discriminate].
  apply andb_true_iff in B. destruct B as [B Bd]. apply andb_true_iff in B. destruct B as [B Bc]. apply andb_true_iff in B. destruct B as [Ba Bb].
  apply Z.ltb_lt in Ba, Bb, Bc, Bd. apply bind_ok in E. destruct E as [vals [Ev E]]. apply bind_ok in E. destruct E as [name [En E]].
  destruct (read_properties_columns h rows _ l1 _ vals G eq_refl Ev) as [row [HR HV]]. exists row.
  assert (st' = mkSolidT (st_tets st ++ [((a, b, c, d), name)]) vals) as -> by congruence. split; cbn [st_tets st_vals].
  - apply Forall2_snoc; [assumption|]. unfold tetra_of. cbn [fst snd]. repeat (split; [assumption|]). split.
    + unfold quad_in. cbn [quad_list]. repeat (apply Forall_cons; [lia|]). constructor.
    + unfold idx in En. destruct (nth_error (string_split l2) 2); congruence.
  - now apply Forall2_snoc.
  - assumption.
Qed.
Definition flat_pairs (tl : list (bytes * bytes)) : list bytes := flat_map (fun ll => [fst ll; snd ll]) tl.
(** Consecutive lines; the last line of a file without final end of line may be read twice. *)
Definition lines_in (b : bool) (new ls : list bytes) : Prop :=
  exists rest, ls = new ++ rest \/ b = false /\ exists a l, ls = a ++ [l] /\ new = a ++ [l; l].
Lemma tetras_steps n h : good_header h -> forall k ls, (List.length ls <= k)%nat -> forall tl (st : SolidT F) rows line b st' l' s', tetras_of n h tl st rows ->
  lso_tetras F h n st line b ls = Ok (st', l', s') ->
  exists new rows', lines_in b (flat_pairs new) (line :: ls) /\ tetras_of n h (tl ++ new) st' rows'.
Proof.
  intros G. induction k as [|k IH]; intros ls HL tl st rows line b st' l' s' V E.
  - destruct ls; [|cbn [List.length] in HL; lia]. cbn [lso_tetras] in E. apply bind_ok in E. destruct E as [st1 [E1 E]].
    assert (st1 = st') as <- by congruence. destruct b.
    + exfalso. unfold lso_tetra in E1. do 4 (apply bind_ok in E1; destruct E1 as [? [_ E1]]). destruct (_ && _); [|discriminate].
      apply bind_ok in E1. destruct E1 as [? [_ E1]]. discriminate.
    + destruct (tetra_step _ _ _ _ _ _ _ _ G V E1) as [row V1]. exists [(line, line)], (rows ++ [row]). split; [|assumption].
      exists []. right. split; [reflexivity|]. exists [], line. auto.
  - destruct ls as [|l2 ls]; cbn [lso_tetras] in E; apply bind_ok in E; destruct E as [st1 [E1 E]].
    + assert (st1 = st') as <- by congruence. destruct b.
      * exfalso. unfold lso_tetra in E1. do 4 (apply bind_ok in E1; destruct E1 as [? [_ E1]]). destruct (_ && _); [|discriminate].
        apply bind_ok in E1. destruct E1 as [? [_ E1]]. discriminate.
      * destruct (tetra_step _ _ _ _ _ _ _ _ G V E1) as [row V1]. exists [(line, line)], (rows ++ [row]). split; [|assumption].
        exists []. right. split; [reflexivity|]. exists [], line. auto.
    + destruct (tetra_step _ _ _ _ _ _ _ _ G V E1) as [row V1]. destruct ls as [|l ls].
      * assert (st1 = st') as <- by congruence. exists [(line, l2)], (rows ++ [row]). split; [exists []; now left|assumption].
      * destruct (starts_with l "TETRA").
        -- destruct (IH ls ltac:(cbn [List.length] in HL; lia) _ _ _ _ _ _ _ _ V1 E) as [new [rows' [[rest HI] V2]]].
           exists ((line, l2) :: new), rows'. rewrite <- app_assoc in V2. split; [|exact V2]. cbn [flat_pairs flat_map fst snd app]. fold (flat_pairs new).
           destruct HI as [HI|[HB [a [x [H1 H2]]]]].
           ++ exists rest. left. now rewrite HI.
           ++ exists []. right. split; [assumption|]. exists (line :: l2 :: a), x. rewrite H1, H2. auto.
        -- assert (st1 = st') as <- by congruence. exists [(line, l2)], (rows ++ [row]). split; [exists (l :: ls); now left|assumption].
Qed.
End Columns.

(** ** Attributes *)
Section Attributes.
Context {V : Type}.
Lemma find_replace_same n (a : attr V) l : find_attr n (replace_attr n a l) = Some a.
Proof.
  unfold find_attr. induction l as [|[x b] l IH]; cbn [replace_attr find fst].
  - now rewrite beq_refl.
  - destruct (beq x n) eqn:E; cbn [find fst]; [now rewrite beq_refl|]. now rewrite E.
Qed.
Lemma find_replace_other n n' (a : attr V) l : n <> n' -> find_attr n' (replace_attr n a l) = find_attr n' l.
Proof.
  intros H. unfold find_attr. induction l as [|[x b] l IH]; cbn [replace_attr find fst].
  - destruct (beq n n') eqn:E; [apply beq_eq in E; congruence|reflexivity].
  - destruct (beq x n) eqn:E; cbn [find fst].
    + apply beq_eq in E. subst x. destruct (beq n n') eqn:E'; [apply beq_eq in E'; congruence|reflexivity].
    + destruct (beq x n'); [reflexivity|exact IH].
Qed.
Lemma make_attributes_keep vt count names : forall esizes ndvs values nb mapping (l l' : list (bytes * attr V)) n,
  make_attributes vt count names esizes ndvs values nb mapping l = Ok l' -> ~ In n names -> find_attr n l' = find_attr n l.
Proof.
  induction names as [|x names IH]; intros esizes ndvs values nb mapping l l' n E H; cbn [make_attributes] in E; [congruence|].
  destruct esizes as [|e es]; [discriminate|]. destruct ndvs as [|d ds]; [discriminate|]. destruct values as [|v vs]; [discriminate|].
  apply bind_ok in E. destruct E as [a [_ E]]. apply bind_ok in E. destruct E as [w [_ E]].
  rewrite (IH _ _ _ _ _ _ _ n E) by (intros Hi; apply H; now right). apply find_replace_other. intros ->. apply H. now left.
Qed.
Lemma make_attributes_spec vt count names : NoDup names -> forall esizes ndvs values nb mapping (l l' : list (bytes * attr V)),
  (forall n, In n names -> find_attr n l = None) ->
  make_attributes vt count names esizes ndvs values nb mapping l = Ok l' ->
  forall j n, nth_error names j = Some n -> exists e d col a, nth_error esizes j = Some e /\ nth_error ndvs j = Some d /\ nth_error values j = Some col /\
    find_attr n l' = Some a /\ fill_attr col e (repeat d (Z.to_nat e)) mapping 0 nb (repeat (repeat d (Z.to_nat e)) count) = Ok (a_vals a).
Proof.
  induction 1 as [|x names Hx ND IH]; intros esizes ndvs values nb mapping l l' HN E j n Hj; [destruct j; discriminate|]. cbn [make_attributes] in E.
  destruct esizes as [|e es]; [discriminate|]. destruct ndvs as [|d ds]; [discriminate|]. destruct values as [|v vs]; [discriminate|].
  apply bind_ok in E. destruct E as [a [Ea E]]. apply bind_ok in E. destruct E as [w [Ew E]].
  destruct j as [|j]; cbn [nth_error] in Hj.
  - assert (n = x) as -> by congruence. clear Hj. exists e, d, v, (mkAttr (a_type a) (a_def a) w). cbn [nth_error]. repeat (split; [reflexivity|]). split.
    + rewrite (make_attributes_keep _ _ _ _ _ _ _ _ _ _ x E Hx). apply find_replace_same.
    + cbn [a_vals]. unfold find_or_create_in in Ea. destruct (vt && beq x "points"); [discriminate|]. rewrite (HN x (or_introl eq_refl)) in Ea.
      assert (a = mkAttr (attr_type e) (repeat d (Z.to_nat e)) (repeat (repeat d (Z.to_nat e)) count)) as -> by congruence. exact Ew.
  - cbn [nth_error]. eapply (IH es ds vs nb mapping); [|exact E|exact Hj]. intros n' Hn'. rewrite find_replace_other; [apply HN; now right|]. intros ->. now apply Hx.
Qed.
Lemma nthz_nat {A} (l : list A) i : nthz l (Z.of_nat i) = nth_error l i.
Proof.
  unfold nthz. rewrite Nat2Z.id. destruct (Z.leb_spec 0 (Z.of_nat i)); [|lia]. destruct (Z.ltb_spec (Z.of_nat i) (Z.of_nat (List.length l))); [reflexivity|].
  symmetry. apply nth_error_None. lia.
Qed.
Lemma fill_attr_spec (vals : list V) e d mapping n : forall pt a a', fill_attr vals e d mapping pt n a = Ok a' ->
  List.length a' = List.length a /\ (n <> 0%nat -> (pt + n <= List.length a)%nat) /\
  (forall i, (pt <= i < pt + n)%nat -> exists k row, nth_error mapping i = Some k /\ attr_row vals e d k = Ok row /\ nth_error a' i = Some row) /\
  (forall i, ~ (pt <= i < pt + n)%nat -> nth_error a' i = nth_error a i).
Proof.
  induction n as [|n IH]; intros pt a a' E; cbn [fill_attr] in E.
  - assert (a' = a) as -> by congruence. split; [reflexivity|]. split; [congruence|]. split; [intros; lia|reflexivity].
  - apply bind_ok in E. destruct E as [k [Ek E]]. apply bind_ok in E. destruct E as [row [Er E]]. apply bind_ok in E. destruct E as [a1 [E1 E]].
    unfold idx in Ek. destruct (nth_error mapping pt) as [k'|] eqn:Em; [|discriminate]. assert (k' = k) as -> by congruence.
    apply setz_nthz in E1. destruct E1 as [L1 [H1 H2]]. destruct (IH _ _ _ E) as [L2 [B2 [H3 H4]]]. unfold lenz in L1.
    assert (X : nth_error a1 pt = Some row) by now rewrite <- nthz_nat.
    assert (Y : (pt < List.length a1)%nat) by (apply nth_error_Some; congruence).
    split; [lia|]. split; [intros _; destruct n; [lia|specialize (B2 ltac:(congruence)); lia]|]. split.
    + intros i Hi. destruct (Nat.eq_dec i pt) as [->|N].
      * exists k, row. split; [assumption|]. split; [assumption|]. rewrite H4 by lia. assumption.
      * apply H3. lia.
    + intros i Hi. rewrite H4 by lia. specialize (H2 (Z.of_nat i) ltac:(lia)). now rewrite !nthz_nat in H2.
Qed.
(** Row of an element: its chunk of the flat list. *)
Lemma concat_chunk (cs : list (list V)) e k c : Forall (fun c => List.length c = e) cs -> nth_error cs k = Some c ->
  forall it, (it < e)%nat -> nth_error (List.concat cs) (k * e + it) = nth_error c it.
Proof.
  intros H. revert k. induction H as [|x cs Hx H IH]; intros [|k] Hk it Hit; try discriminate; cbn [nth_error] in Hk; cbn [List.concat].
  - assert (x = c) as -> by congruence. cbn [Nat.mul Nat.add]. apply nth_error_app1. lia.
  - rewrite nth_error_app2 by lia. replace (S k * e + it - List.length x)%nat with (k * e + it)%nat by lia. now apply IH.
Qed.
Lemma concat_length_const (cs : list (list V)) e : Forall (fun c => List.length c = e) cs -> List.length (List.concat cs) = (List.length cs * e)%nat.
Proof. induction 1 as [|x cs Hx H IH]; [reflexivity|]. cbn [List.concat List.length]. rewrite app_length, IH. lia. Qed.
Lemma mapM_idx (l c : list V) o n : (forall it, (it < n)%nat -> nth_error l (o + it) = nth_error c it) -> List.length c = n ->
  mapM (fun it => idx l (o + it)) (seq 0 n) = Ok c.
Proof.
  intros H L. apply mapM_ok. revert c H L. assert (G : forall n s c, (forall it, (it < n)%nat -> nth_error l (o + (s + it)) = nth_error c it) -> List.length c = n ->
    Forall2 (fun it v => idx l (o + it) = Ok v) (seq s n) c).
  { clear n. induction n as [|n IH]; intros s c H L; destruct c as [|v c]; try discriminate; cbn [seq]; constructor.
    - specialize (H 0%nat ltac:(lia)). rewrite Nat.add_0_r in H. cbn [nth_error] in H. unfold idx. now rewrite H.
    - apply IH; [|cbn [List.length] in L; lia]. intros it Hit. specialize (H (S it) ltac:(lia)). cbn [nth_error] in H.
      now replace (o + (S s + it))%nat with (o + (s + S it))%nat by lia. }
  intros c H L. apply G; assumption.
Qed.
Lemma attr_row_chunk (cs : list (list V)) e d k row : 1 <= e < 256 -> List.length d = Z.to_nat e -> Forall (fun c => List.length c = Z.to_nat e) cs ->
  attr_row (List.concat cs) e d k = Ok row -> nth_error cs k = Some row.
Proof.
  intros He Ld H E. unfold attr_row in E. rewrite items_small in E by lia. apply bind_ok in E. destruct E as [r [Er E]].
  assert (skipn (Z.to_nat e) d = []) as S by (apply skipn_all2; lia). rewrite S, app_nil_r in E. assert (r = row) as -> by congruence. clear E.
  destruct (nth_error cs k) as [c|] eqn:Ec.
  - assert (L : List.length c = Z.to_nat e) by (rewrite Forall_forall in H; apply H; eapply nth_error_In; exact Ec).
    rewrite (mapM_idx _ c _ _ (concat_chunk cs _ k c H Ec) L) in Er. congruence.
  - exfalso. apply nth_error_None in Ec. destruct (Z.to_nat e) as [|n] eqn:En; [lia|]. cbn [seq mapM] in Er. apply bind_ok in Er. destruct Er as [x [Ex _]].
    unfold idx in Ex. rewrite (proj2 (nth_error_None _ _)) in Ex; [discriminate|]. rewrite (concat_length_const cs _ H). nia.
Qed.
End Attributes.
