(** * Malformed files, TFACE sections, property rows, declared properties and is_loadable
    for the GOCAD mesh readers (C15, C16, C17, C18, C54). *)
From Coq Require Import ZArith List Lia Bool Ascii String.
From Verif Require Import Base Text TextFacts GocadModel MeshModel TsModel Spec GocadFacts TsFacts
  DepthFacts StreamFacts ShiftFacts ExNum ExCheck.
Import ListNotations.
Local Open Scope string_scope.
Local Open Scope list_scope.
Local Open Scope Z_scope.

(** ** C15 *)

(** C15 is false: a blank line among the data lines is enough. *)
Definition blank_ts : bytes := unlines
  [lit "GOCAD TSurf 1"; lit "HEADER {"; lit "}"; lit "TFACE"; lit "VRTX 1 0 0 0"; []; lit "END"].
Definition blank_vs : bytes := unlines
  [lit "GOCAD VSet 1"; lit "HEADER {"; lit "}"; lit "VRTX 1 0 0 0"; []; lit "END"].
Definition blank_pl : bytes := unlines
  [lit "GOCAD PLine 1"; lit "HEADER {"; lit "}"; lit "ILINE"; lit "VRTX 1 0 0 0"; []; lit "END"].
Theorem C15_no_undefined_behaviour_refuted :
  exists (F : Num) (ts vs pl : bytes), num_ok F /\
    read_ts F ts = UB /\ read_vs F vs = UB /\ read_pl F pl = UB.
Proof.
  exists ExNum, blank_ts, blank_vs, blank_pl. split; [apply ExNum_ok|].
  split; [|split]; apply is_UB_ok; vm_compute; reflexivity.
Qed.
Print Assumptions C15_no_undefined_behaviour_refuted.

(** What holds for every text: loading terminates. *)
Theorem C15_terminates_partial :
  forall (F : Num) (text : bytes),
    read_ts F text <> Hang /\ read_vs F text <> Hang /\ read_pl F text <> Hang.
Proof.
  intros F text. unfold read_ts, read_vs, read_pl. split; [|split].
  - apply read_ts_loop_nohang. lia.
  - apply read_vs_loop_nohang. lia.
  - apply read_pl_loop_nohang. lia.
Qed.
Print Assumptions C15_terminates_partial.

(** What holds for files without blank lines, with closed quotes and with enough words after the
    keywords: no undefined behaviour when reading.  Number of words required after a keyword: *)
Definition needed_words (k : bytes) : nat :=
  if beq k "VRTX" || beq k "PVRTX" then 4
  else if beq k "ATOM" || beq k "PATOM" then 2
  else if beq k "TRGL" || beq k "BORDER" then 3
  else if beq k "SEG" then 2
  else if beq k "BSTONE" || beq k "ZPOSITIVE" || beq k "PROJECTION" || beq k "DATUM" || beq k "NAME" then 1
  else 0.
Definition well_shaped (l : bytes) : Prop :=
  exists k r, string_split l = k :: r /\ k <> [QUOTE] /\ balanced (k :: r) /\
    (needed_words k <= List.length r)%nat /\ starts_with l "PROPERTIES" = false.

Lemma bind_noub {A B} (r : res A) (f : A -> res B) :
  r <> UB -> (forall a, r = Ok a -> f a <> UB) -> bind r f <> UB.
Proof. destruct r; simpl; intros H1 H2; auto; discriminate. Qed.
Lemma idx_noub {A} (l : list A) i : (i < List.length l)%nat -> idx l i <> UB.
Proof. unfold idx. intros H. destruct (nth_error l i) eqn:E; [discriminate|]. apply nth_error_None in E. lia. Qed.
Lemma sti_noub l : string_to_index l <> UB.
Proof. unfold string_to_index. destruct (parse_index l); discriminate. Qed.
Lemma std_noub F l : string_to_double F l <> UB.
Proof. unfold string_to_double. destruct (atod F l); discriminate. Qed.
Lemma tok_index_noub o tk i : (i < List.length tk)%nat -> tok_index o tk i <> UB.
Proof.
  intros H. unfold tok_index. apply bind_noub; [now apply idx_noub|]. intros a _.
  apply bind_noub; [apply sti_noub|discriminate].
Qed.
Lemma vrtx_point_noub F c tk : (4 < List.length tk)%nat -> vrtx_point F c tk <> UB.
Proof.
  intros H. unfold vrtx_point.
  repeat (apply bind_noub; [first [apply idx_noub; lia|apply std_noub]|intros ? _]). discriminate.
Qed.
Lemma vrtx_offset_noub b o tk : (1 < List.length tk)%nat -> vrtx_offset b o tk <> UB.
Proof.
  intros H. unfold vrtx_offset. destruct b; [|discriminate].
  apply bind_noub; [now apply idx_noub|]. intros a _. apply sti_noub.
Qed.
Lemma atz_noub {A} (l : list A) i : atz l i <> UB.
Proof. unfold atz. destruct (nthz l i); discriminate. Qed.
Lemma needed_vrtx k : is_vrtx k = true -> needed_words k = 4%nat.
Proof. unfold is_vrtx, needed_words. now intros ->. Qed.
Ltac needed k := unfold needed_words; rewrite ?(beq_refl k); repeat rewrite Bool.orb_true_r; reflexivity.
Lemma tface_line_noub F ts l : well_shaped l -> p_names (t_props ts) = [] -> tface_line F ts l <> UB.
Proof.
  intros [k [r [E [_ [_ [Hn _]]]]]] Hp. unfold tface_line. rewrite E. cbn [front bind].
  destruct ts as [off name crs props pts tris tro vo bst bor vals]. cbn [t_props] in Hp. rewrite Hp.
  destruct (is_vrtx k) eqn:Ev.
  { rewrite needed_vrtx in Hn by assumption.
    apply bind_noub; [apply vrtx_offset_noub; cbn [List.length]; lia|]. intros o _.
    apply bind_noub; [apply vrtx_point_noub; cbn [List.length]; lia|]. intros p _. discriminate. }
  destruct (is_atom k) eqn:Ea.
  { assert (needed_words k = 2%nat) as N by (unfold needed_words; unfold is_vrtx in Ev; rewrite Ev; unfold is_atom in Ea; now rewrite Ea).
    rewrite N in Hn.
    apply bind_noub; [apply tok_index_noub; cbn [List.length]; lia|]. intros i _.
    apply bind_noub; [apply atz_noub|]. intros p _. discriminate. }
  destruct (beq k "TRGL") eqn:E1.
  { apply beq_eq in E1. subst k. assert (3 <= List.length r)%nat as Hr by exact Hn.
    repeat (apply bind_noub; [apply tok_index_noub; cbn [List.length]; lia|intros ? _]). discriminate. }
  destruct (beq k "BSTONE") eqn:E2.
  { apply beq_eq in E2. subst k. assert (1 <= List.length r)%nat as Hr by exact Hn.
    repeat (apply bind_noub; [apply tok_index_noub; cbn [List.length]; lia|intros ? _]). discriminate. }
  destruct (beq k "BORDER") eqn:E3.
  { apply beq_eq in E3. subst k. assert (3 <= List.length r)%nat as Hr by exact Hn.
    repeat (apply bind_noub; [apply tok_index_noub; cbn [List.length]; lia|intros ? _]). discriminate. }
  destruct (beq k "TFACE"); [discriminate|]. destruct (beq k "END"); discriminate.
Qed.
Lemma tface_line_props F ts l x : tface_line F ts l = Ok x -> t_props (fst x) = t_props ts.
Proof.
  unfold tface_line. destruct (string_split l) as [|k r]; [discriminate|]. cbn [front bind].
  destruct ts as [off name crs props pts tris tro vo bst bor vals]. cbn [t_props].
  intros H. repeat match type of H with
    | (if ?b then _ else _) = _ => destruct b
    | bind _ _ = _ => apply bind_ok in H as [? [_ H]]
    | Ok _ = _ => injection H as <-
    end; reflexivity.
Qed.
Lemma tfaces_loop_noub F ts ls : Forall well_shaped ls -> p_names (t_props ts) = [] -> tfaces_loop F ts ls <> UB.
Proof.
  intros H. revert ts. induction H as [|l r H1 H2 IH]; intros ts Hp; [discriminate|]. cbn [tfaces_loop].
  apply bind_noub; [now apply tface_line_noub|]. intros [ts' b] E. apply tface_line_props in E. cbn [fst] in E.
  destruct b; [discriminate|]. apply IH. congruence.
Qed.
Lemma iline_line_noub F ts l : well_shaped l -> iline_line F ts l <> UB.
Proof.
  intros [k [r [E [_ [_ [Hn _]]]]]]. unfold iline_line. rewrite E. cbn [front bind].
  destruct ts as [off name crs pts es].
  destruct (is_vrtx k) eqn:Ev.
  { rewrite needed_vrtx in Hn by assumption.
    apply bind_noub; [apply vrtx_offset_noub; cbn [List.length]; lia|]. intros o _.
    apply bind_noub; [apply vrtx_point_noub; cbn [List.length]; lia|]. intros p _. discriminate. }
  destruct (beq k "SEG") eqn:E1.
  { apply beq_eq in E1. subst k. assert (2 <= List.length r)%nat as Hr by exact Hn.
    repeat (apply bind_noub; [apply tok_index_noub; cbn [List.length]; lia|intros ? _]). discriminate. }
  destruct (beq k "END"); discriminate.
Qed.
Lemma ilines_loop_noub F ts ls : Forall well_shaped ls -> ilines_loop F ts ls <> UB.
Proof.
  intros H. revert ts. induction H as [|l r H1 H2 IH]; intros ts; [discriminate|]. cbn [ilines_loop].
  apply bind_noub; [now apply iline_line_noub|]. intros [ts' b] E. destruct b; [discriminate|]. apply IH.
Qed.
Lemma vset_line_noub F ts l : well_shaped l -> p_names (v_props ts) = [] -> vset_line F ts l <> UB.
Proof.
  intros [k [r [E [_ [_ [Hn _]]]]]] Hp. unfold vset_line. rewrite E. cbn [front bind].
  destruct ts as [off name crs props pts vals]. cbn [v_props] in Hp. rewrite Hp.
  destruct (beq k "END"); [discriminate|]. destruct (is_vrtx k) eqn:Ev; [|discriminate]. cbn [negb].
  rewrite needed_vrtx in Hn by assumption.
  apply bind_noub; [apply vrtx_offset_noub; cbn [List.length]; lia|]. intros o _.
  apply bind_noub; [apply vrtx_point_noub; cbn [List.length]; lia|]. intros p _. discriminate.
Qed.
Lemma vset_line_props F ts l x : vset_line F ts l = Ok x -> v_props (fst x) = v_props ts.
Proof.
  unfold vset_line. destruct (string_split l) as [|k r]; [discriminate|]. cbn [front bind].
  destruct ts as [off name crs props pts vals]. cbn [v_props].
  intros H. repeat match type of H with
    | (if ?b then _ else _) = _ => destruct b
    | bind _ _ = _ => apply bind_ok in H as [? [_ H]]
    | Ok _ = _ => injection H as <-
    end; reflexivity.
Qed.
Lemma vset_loop_noub F ts ls : Forall well_shaped ls -> p_names (v_props ts) = [] -> vset_loop F ts ls <> UB.
Proof.
  intros H. revert ts. induction H as [|l r H1 H2 IH]; intros ts Hp; [discriminate|]. cbn [vset_loop].
  apply bind_noub; [now apply vset_line_noub|]. intros [ts' b] E. apply vset_line_props in E. cbn [fst] in E.
  destruct b; [discriminate|]. apply IH. congruence.
Qed.
Lemma vset_loop_props F ts ls x : vset_loop F ts ls = Ok x -> v_props (fst x) = v_props ts.
Proof.
  revert ts. induction ls as [|l r IH]; intros ts; [discriminate|]. cbn [vset_loop]. intros H.
  apply bind_ok in H as [[ts' b] [H1 H]]. apply vset_line_props in H1. cbn [fst] in H1.
  destruct b; [injection H as <-; exact H1|]. apply IH in H. congruence.
Qed.
Lemma header_loop_noub n ls : header_loop n ls <> UB.
Proof.
  revert n. induction ls as [|l r IH]; intros n; [discriminate|]. cbn [header_loop].
  destruct (starts_with l "}"); [discriminate|]. destruct (after_first _ l); apply IH.
Qed.
Lemma read_header_noub s : read_header s <> UB.
Proof.
  unfold read_header. apply bind_noub.
  - unfold check_keyword. destruct (pending s); [discriminate|]. destruct (starts_with _ _); discriminate.
  - intros s1 _. apply bind_noub; [apply header_loop_noub|]. intros [n r] _. discriminate.
Qed.
Lemma merge_nonempty t r m : merge_quotes None (t :: r) = Ok m -> m <> [].
Proof.
  cbn [merge_quotes]. destruct (beq t Q1).
  - generalize (@nil ascii). revert m. induction r as [|x r IH]; intros m acc; [discriminate|]. cbn [merge_quotes].
    destruct (ends_with_quote x).
    + intros H. apply bind_ok in H as [k [_ H]]. injection H as <-. discriminate.
    + apply IH.
  - intros H. apply bind_ok in H as [k [_ H]]. injection H as <-. discriminate.
Qed.
Lemma crs_line_noub c l : well_shaped l -> crs_line c l <> UB.
Proof.
  intros [k [r [E [Hk [Hb [Hn _]]]]]]. unfold crs_line, split_quotes. rewrite E.
  destruct (balanced_ok _ Hb) as [m Hm]. rewrite Hm. cbn [bind].
  cbn [merge_quotes] in Hm. rewrite (proj2 (beq_neq k Q1)) in Hm by exact Hk.
  apply bind_ok in Hm as [m' [Hm Em]]. injection Em as <-. cbn [idx nth_error bind].
  assert (Hr : (1 <= needed_words k)%nat -> (1 < List.length (k :: m'))%nat).
  { intros H1. destruct r as [|x r]; [cbn [List.length] in Hn; lia|]. apply merge_nonempty in Hm.
    destruct m'; [contradiction|cbn [List.length]; lia]. }
  destruct (beq k "ZPOSITIVE") eqn:E1.
  { apply beq_eq in E1. subst k. apply bind_noub; [apply idx_noub, Hr; now vm_compute|discriminate]. }
  destruct (beq k "PROJECTION") eqn:E2.
  { apply beq_eq in E2. subst k. apply bind_noub; [apply idx_noub, Hr; now vm_compute|discriminate]. }
  destruct (beq k "DATUM") eqn:E3.
  { apply beq_eq in E3. subst k. apply bind_noub; [apply idx_noub, Hr; now vm_compute|discriminate]. }
  destruct (beq k "NAME") eqn:E4.
  { apply beq_eq in E4. subst k. apply bind_noub; [apply idx_noub, Hr; now vm_compute|discriminate]. }
  discriminate.
Qed.
Lemma crs_loop_noub c ls : Forall well_shaped ls -> crs_loop c ls <> UB.
Proof.
  intros H. revert c. induction H as [|l r H1 H2 IH]; intros c; [discriminate|]. cbn [crs_loop].
  destruct (starts_with _ _); [discriminate|]. apply bind_noub; [now apply crs_line_noub|]. intros; apply IH.
Qed.
Lemma read_CRS_noub s : Forall well_shaped (pending s) -> read_CRS s <> UB.
Proof.
  intros H. unfold read_CRS. destruct (next_if _ s) as [[l|] s1] eqn:E; [|discriminate].
  apply next_if_suffix in E. apply bind_noub; [apply crs_loop_noub; eapply suffix_Forall; eassumption|].
  intros [c r] _. discriminate.
Qed.
Lemma read_prop_header_none F s : Forall well_shaped (pending s) ->
  exists s1, read_prop_header F [] s = Ok (empty_prop, s1) /\ suffix (pending s1) (pending s).
Proof.
  intros H. unfold read_prop_header, next_if. cbn [app].
  destruct (pending s) as [|l r] eqn:E.
  - eexists. split; [reflexivity|]. apply suffix_refl.
  - pose proof (Forall_inv H) as [k [t [_ [_ [_ [_ Hs]]]]]]. rewrite Hs. exists s. split; [reflexivity|].
    rewrite E. apply suffix_refl.
Qed.
Ltac sf := eapply suffix_Forall; [eassumption|].
Lemma goto_if_Forall (P : bytes -> Prop) kw s l s' : goto_if kw s = (Some l, s') -> Forall P (pending s) -> Forall P (pending s').
Proof. intros E H. apply goto_if_suffix in E. apply suffix_tl in E. now sf. Qed.
Lemma read_tsurf_noub F s : Forall well_shaped (pending s) -> read_tsurf F s <> UB.
Proof.
  intros H. unfold read_tsurf. destruct (goto_if _ s) as [[l|] s1] eqn:E; [|discriminate].
  apply (goto_if_Forall well_shaped) in E; [|assumption].
  apply bind_noub; [apply read_header_noub|]. intros [n s2] H2. apply read_header_suffix in H2. cbn [snd] in H2.
  assert (W2 : Forall well_shaped (pending s2)) by now sf.
  apply bind_noub; [now apply read_CRS_noub|]. intros [c s3] H3. apply read_CRS_suffix in H3. cbn [snd] in H3.
  assert (W3 : Forall well_shaped (pending s3)) by now sf.
  destruct (read_prop_header_none F s3 W3) as [s4 [-> S4]]. cbn [bind].
  assert (W4 : Forall well_shaped (pending s4)) by now sf.
  apply bind_noub; [|intros [ts s5] _; discriminate]. unfold read_tfaces.
  apply bind_noub; [unfold goto_keyword; destruct (goto_if _ s4) as [[|] ?]; discriminate|].
  intros [l5 s5] H5. apply goto_keyword_suffix in H5. apply suffix_tl in H5.
  apply bind_noub; [apply tfaces_loop_noub; [now sf|reflexivity]|]. intros [ts r] _. discriminate.
Qed.
Lemma read_ecurve_noub F s : Forall well_shaped (pending s) -> read_ecurve F s <> UB.
Proof.
  intros H. unfold read_ecurve. destruct (goto_if _ s) as [[l|] s1] eqn:E; [|discriminate].
  apply (goto_if_Forall well_shaped) in E; [|assumption].
  apply bind_noub; [apply read_header_noub|]. intros [n s2] H2. apply read_header_suffix in H2. cbn [snd] in H2.
  assert (W2 : Forall well_shaped (pending s2)) by now sf.
  apply bind_noub; [now apply read_CRS_noub|]. intros [c s3] H3. apply read_CRS_suffix in H3. cbn [snd] in H3.
  assert (W3 : Forall well_shaped (pending s3)) by now sf.
  apply bind_noub; [|intros [ts s5] _; discriminate]. unfold read_ilines.
  apply bind_noub; [unfold goto_keyword; destruct (goto_if _ s3) as [[|] ?]; discriminate|].
  intros [l5 s5] H5. apply goto_keyword_suffix in H5. apply suffix_tl in H5.
  apply bind_noub; [apply ilines_loop_noub; now sf|]. intros [ts r] _. discriminate.
Qed.
Lemma read_vs_points_noub F s : Forall well_shaped (pending s) -> read_vs_points F s <> UB /\
  forall vs s', read_vs_points F s = Ok (Some vs, s') -> p_names (v_props vs) = [].
Proof.
  intros H. unfold read_vs_points. destruct (goto_if _ s) as [[l|] s1] eqn:E; [|split; discriminate].
  apply (goto_if_Forall well_shaped) in E; [|assumption].
  destruct (read_header s1) as [[n s2]| | |] eqn:H2; cbn [bind]; try (split; discriminate);
    [|now apply read_header_noub in H2].
  apply read_header_suffix in H2. cbn [snd] in H2. assert (W2 : Forall well_shaped (pending s2)) by now sf.
  destruct (read_CRS s2) as [[c s3]| | |] eqn:H3; cbn [bind]; try (split; discriminate);
    [|now apply read_CRS_noub in H3].
  apply read_CRS_suffix in H3. cbn [snd] in H3. assert (W3 : Forall well_shaped (pending s3)) by now sf.
  destruct (read_prop_header_none F s3 W3) as [s4 [-> S4]]. cbn [bind].
  assert (W4 : Forall well_shaped (pending s4)) by now sf. unfold read_VSet_vertices.
  destruct (goto_keywords _ s4) as [[l5 s5]| | |] eqn:H5; cbn [bind]; try (split; discriminate).
  2: { unfold goto_keywords in H5. destruct (scan _ _) as [[? ?]|] in H5; discriminate. }
  apply goto_keywords_suffix in H5.
  destruct (vset_loop _ _ _) as [[vs' r]| | |] eqn:H6; cbn [bind]; try (split; discriminate).
  - split; [discriminate|]. intros vs s' Ev. injection Ev as <- <-. apply vset_loop_props in H6. cbn [fst] in H6.
    rewrite H6. reflexivity.
  - exfalso. revert H6. apply vset_loop_noub; [now sf|reflexivity].
Qed.

Lemma read_vs_loop_noub F f (m : mesh F unit) s : Forall well_shaped (pending s) -> read_vs_loop f m s <> UB.
Proof.
  revert m s. induction f as [|f IH]; intros m s H; [discriminate|]. cbn [read_vs_loop].
  destruct (read_vs_points_noub F s H) as [N P].
  apply bind_noub; [assumption|]. intros [[vs|] s1] E; [|discriminate].
  pose proof (read_vs_points_suffix _ _ _ _ E) as [l S]. specialize (P _ _ E).
  unfold build_point_set, create_attributes. rewrite P. cbn [create_attributes_loop bind].
  apply IH. apply suffix_tl in S. now sf.
Qed.

(** C15, files of well-shaped lines: loading a point set never runs into undefined behaviour, and
    neither do the readers of the text of surfaces and curves.  Missing: PROPERTIES sections, and
    (for surfaces and curves) corner numbers that designate no vertex. *)
Theorem C15_well_shaped_partial :
  forall (F : Num) (text : bytes),
    (forall l, In l (pending (open_text text)) -> well_shaped l) ->
    read_vs F text <> UB /\
    (forall s, suffix (pending s) (pending (open_text text)) ->
       read_tsurf F s <> UB /\ read_ecurve F s <> UB /\ read_vs_points F s <> UB).
Proof.
  intros F text H. apply Forall_forall in H. split.
  - now apply read_vs_loop_noub.
  - intros s S. assert (W : Forall well_shaped (pending s)) by now sf.
    split; [now apply read_tsurf_noub|]. split; [now apply read_ecurve_noub|now apply read_vs_points_noub].
Qed.
Print Assumptions C15_well_shaped_partial.
Definition shapedb (l : bytes) : bool :=
  match string_split l with
  | k :: r => forallb (fun t => negb (beq t [QUOTE])) (k :: r) && Nat.leb (needed_words k) (List.length r)
              && negb (starts_with l "PROPERTIES")
  | [] => false
  end.
Lemma shapedb_ok l : shapedb l = true -> well_shaped l.
Proof.
  unfold shapedb, well_shaped. destruct (string_split l) as [|k r]; [discriminate|]. intros H.
  apply andb_true_iff in H as [H H3]. apply andb_true_iff in H as [H1 H2].
  exists k, r. split; [reflexivity|].
  assert (N : forall x, In x (k :: r) -> x <> [QUOTE]).
  { intros x Hx. rewrite forallb_forall in H1. specialize (H1 x Hx). apply negb_true_iff in H1. now apply beq_neq. }
  split; [apply N; now left|]. split.
  - clear H1 H2 H3. induction (k :: r) as [|x t IH]; [constructor|]. apply bal_tok; [apply N; now left|].
    apply IH. intros y Hy. apply N. now right.
  - split; [now apply Nat.leb_le|]. now apply negb_true_iff.
Qed.
(** A malformed file meeting the hypotheses: truncated after a well-shaped line. *)
Example C15_instance :
  forallb shapedb (pending (open_text (unlines [lit "GOCAD VSet 1"; lit "HEADER {"; lit "}";
     lit "GOCAD_ORIGINAL_COORDINATE_SYSTEM"; lit "NAME x"; lit "END_ORIGINAL_COORDINATE_SYSTEM";
     lit "VRTX 1 0 abc 0"; lit "garbage"]))) = true.
Proof. vm_compute. reflexivity. Qed.

(** ** C16 *)

(** Section in which each vertex line (VRTX, PVRTX, ATOM, PATOM) of a TFACE block is declared;
    [n] is the number of the current section; the block stops at END. *)
Fixpoint sections (n : Z) (ls : list bytes) : list Z :=
  match ls with
  | [] => []
  | l :: r =>
      match string_split l with
      | k :: _ =>
          if existsb (beq k) [lit "VRTX"; lit "PVRTX"; lit "ATOM"; lit "PATOM"] then n :: sections n r
          else if beq k "TFACE" then sections (n + 1) r
          else if beq k "END" then []
          else sections n r
      | [] => sections n r
      end
  end.

(** [offs] closes the sections [n], [n+1], ... in order. *)
Lemma tface_id_loop_app v i a b : Forall (fun o => o <= v) a ->
  tface_id_loop v i (a ++ b) = tface_id_loop v (i + lenz a) b.
Proof.
  intros H. revert i. induction H as [|o r H1 H2 IH]; intros i; cbn [app tface_id_loop].
  - unfold lenz. cbn. f_equal. lia.
  - rewrite (proj2 (Z.ltb_ge v o)) by lia. rewrite IH. unfold lenz. cbn [List.length]. f_equal. lia.
Qed.
Lemma sections_tfaces F : forall ls ts ts' r, tfaces_loop F ts ls = Ok (ts', r) ->
  forall n, lenz (tl (t_vert_off ts)) = n -> t_vert_off ts <> [] -> Forall (fun o => o <= lenz (t_points ts)) (tl (t_vert_off ts)) ->
  exists more pts, t_vert_off ts' = t_vert_off ts ++ more /\ t_points ts' = t_points ts ++ pts /\
    List.length pts = List.length (sections n ls) /\
    Forall (fun o => lenz (t_points ts) <= o) more /\
    forall v k, nth_error (sections n ls) v = Some k ->
      tface_id (t_vert_off ts ++ more) (lenz (t_points ts) + Z.of_nat v) = k.
Proof.
  induction ls as [|l r IH]; intros ts ts' rest H n Hn Hne Hf; [discriminate|].
  cbn [tfaces_loop] in H. apply bind_ok in H as [[t1 b] [H1 H]].
  unfold tface_line in H1. cbn [sections]. destruct (string_split l) as [|k tk]; [discriminate|]. cbn [front bind] in H1.
  destruct ts as [off name crs props pts tris tro vo bst bor vals]. cbn [t_vert_off t_points] in *.
  (* a line that adds a vertex *)
  assert (Add : forall t1 p, t_vert_off t1 = vo -> t_points t1 = pts ++ [p] -> tfaces_loop F t1 r = Ok (ts', rest) ->
    exists more pts0, t_vert_off ts' = vo ++ more /\ t_points ts' = pts ++ pts0 /\
      List.length pts0 = List.length (n :: sections n r) /\ Forall (fun o => lenz pts <= o) more /\
      forall v k, nth_error (n :: sections n r) v = Some k -> tface_id (vo ++ more) (lenz pts + Z.of_nat v) = k).
  { intros t2 p Ev Ep Ht. destruct (IH _ _ _ Ht n) as [more [ps [A1 [A2 [A3 [A4 A5]]]]]].
    - now rewrite Ev.
    - now rewrite Ev.
    - rewrite Ev, Ep. eapply Forall_impl; [|exact Hf]. intros o Ho. unfold lenz in *. rewrite app_length. lia.
    - rewrite Ev, Ep in *. exists more, (p :: ps). rewrite <- app_assoc in A2. cbn [app] in A2.
      split; [assumption|]. split; [assumption|]. split; [cbn [List.length]; now rewrite A3|].
      assert (L : lenz (pts ++ [p]) = lenz pts + 1) by (unfold lenz; rewrite app_length; cbn [List.length]; lia).
      rewrite L in *. split; [eapply Forall_impl; [|exact A4]; intros; cbv beta in *; lia|].
      intros v kk Hk. destruct v as [|v].
      + cbn [nth_error] in Hk. injection Hk as <-. unfold tface_id.
        destruct vo as [|o0 vo]; [contradiction|]. cbn [tl app] in *.
        rewrite tface_id_loop_app by (eapply Forall_impl; [|exact Hf]; intros; cbv beta in *; lia).
        destruct more as [|o more]; cbn [tface_id_loop]; [lia|].
        pose proof (Forall_inv A4) as Ho. cbv beta in Ho. rewrite (proj2 (Z.ltb_lt _ o)) by lia. lia.
      + cbn [nth_error] in Hk. rewrite <- (A5 v kk Hk). f_equal. lia. }
  (* a line that changes neither the vertices nor the sections *)
  assert (Same : forall t1, t_vert_off t1 = vo -> t_points t1 = pts -> tfaces_loop F t1 r = Ok (ts', rest) ->
    exists more pts0, t_vert_off ts' = vo ++ more /\ t_points ts' = pts ++ pts0 /\
      List.length pts0 = List.length (sections n r) /\ Forall (fun o => lenz pts <= o) more /\
      forall v k, nth_error (sections n r) v = Some k -> tface_id (vo ++ more) (lenz pts + Z.of_nat v) = k).
  { intros t2 Ev Ep Ht. destruct (IH _ _ _ Ht n) as [more [ps A]]; rewrite ?Ev, ?Ep in *; auto. exists more, ps. exact A. }
  cbn [existsb]. unfold is_vrtx, is_atom in H1. rewrite orb_false_r.
  destruct (beq k "VRTX") eqn:K1.
  { cbn [orb] in *. apply bind_ok in H1 as [o [_ H1]]. apply bind_ok in H1 as [p [_ H1]].
    apply bind_ok in H1 as [vv [_ H1]]. injection H1 as <- <-. eapply Add; [| |exact H]; reflexivity. }
  destruct (beq k "PVRTX") eqn:K2.
  { cbn [orb] in *. apply bind_ok in H1 as [o [_ H1]]. apply bind_ok in H1 as [p [_ H1]].
    apply bind_ok in H1 as [vv [_ H1]]. injection H1 as <- <-. eapply Add; [| |exact H]; reflexivity. }
  cbn [orb] in *.
  destruct (beq k "ATOM") eqn:K3.
  { cbn [orb] in *. apply bind_ok in H1 as [o [_ H1]]. apply bind_ok in H1 as [p [_ H1]].
    apply bind_ok in H1 as [vv [_ H1]]. injection H1 as <- <-. eapply Add; [| |exact H]; reflexivity. }
  destruct (beq k "PATOM") eqn:K4.
  { cbn [orb] in *. apply bind_ok in H1 as [o [_ H1]]. apply bind_ok in H1 as [p [_ H1]].
    apply bind_ok in H1 as [vv [_ H1]]. injection H1 as <- <-. eapply Add; [| |exact H]; reflexivity. }
  cbn [orb] in *.
  destruct (beq k "TRGL") eqn:K5.
  { apply beq_eq in K5. subst k. cbn.
    apply bind_ok in H1 as [a [_ H1]]. apply bind_ok in H1 as [b0 [_ H1]]. apply bind_ok in H1 as [c [_ H1]].
    injection H1 as <- <-. eapply Same; [| |exact H]; reflexivity. }
  destruct (beq k "BSTONE") eqn:K6.
  { apply beq_eq in K6. subst k. cbn. apply bind_ok in H1 as [a [_ H1]].
    injection H1 as <- <-. eapply Same; [| |exact H]; reflexivity. }
  destruct (beq k "BORDER") eqn:K7.
  { apply beq_eq in K7. subst k. cbn. apply bind_ok in H1 as [a [_ H1]]. apply bind_ok in H1 as [b0 [_ H1]].
    injection H1 as <- <-. eapply Same; [| |exact H]; reflexivity. }
  destruct (beq k "TFACE") eqn:K8.
  { injection H1 as <- <-. destruct (IH _ _ _ H (n + 1)) as [more [ps [A1 [A2 [A3 [A4 A5]]]]]]; cbn [t_vert_off t_points] in *.
    - destruct vo; [contradiction|]. cbn [tl app] in *. unfold lenz in *. rewrite app_length. cbn [List.length]. lia.
    - destruct vo; discriminate.
    - destruct vo; [contradiction|]. cbn [tl app] in *. apply Forall_app. split; [assumption|]. constructor; [lia|constructor].
    - exists (lenz pts :: more), ps. rewrite <- app_assoc in A1. cbn [app] in A1.
      split; [assumption|]. split; [assumption|]. split; [assumption|].
      split; [constructor; [lia|assumption]|]. intros v kk Hk. rewrite <- (A5 v kk Hk), <- app_assoc. reflexivity. }
  destruct (beq k "END") eqn:K9.
  { injection H1 as <- <-. injection H as <- <-. cbn [t_vert_off t_points].
    exists [lenz pts], []. rewrite app_nil_r. split; [reflexivity|]. split; [reflexivity|]. split; [reflexivity|].
    split; [constructor; [lia|constructor]|]. intros [|v] kk Hk; discriminate. }
  injection H1 as <- <-. eapply Same; [| |exact H]; reflexivity.
Qed.

(** C16.  In a TSurf that was read, the data starts after the first TFACE line that follows the
    headers; the sections are numbered from 0; looking up a vertex gives the section whose lines
    declare it, and every vertex has one. *)
Theorem C16_tface_lookup :
  forall (F : Num) (s s' : istream) (ts : TSurf F), read_tsurf F s = Ok (Some ts, s') ->
    exists before first_tface body,
      pending s = before ++ first_tface :: body /\ starts_with first_tface "TFACE" = true /\
      List.length (t_points ts) = List.length (sections 0 body) /\
      forall v k, nth_error (sections 0 body) v = Some k ->
        tface_id (t_vert_off ts) (Z.of_nat v) = k.
Proof.
  intros F s s' ts. unfold read_tsurf. destruct (goto_if _ s) as [[l|] t] eqn:E; [|discriminate].
  apply goto_if_suffix in E. intros H.
  apply bind_ok in H as [[a1 s1] [H1 H]]. apply bind_ok in H as [[a2 s2] [H2 H]].
  apply bind_ok in H as [[a3 s3] [H3 H]]. apply bind_ok in H as [[a4 s4] [H4 H]].
  injection H as <- <-. unfold read_tfaces in H4. apply bind_ok in H4 as [[a5 s5] [H5 H4]].
  apply bind_ok in H4 as [[a6 r] [H6 H4]]. injection H4 as <- <-.
  apply read_header_suffix in H1. apply read_CRS_suffix in H2. apply read_prop_header_suffix in H3. cbn [fst snd] in *.
  assert (K : starts_with a5 "TFACE" = true).
  { unfold goto_keyword, goto_if in H5. destruct (scan _ (pending s3)) as [[x y]|] eqn:Es; [|discriminate].
    injection H5 as <- <-. clear -Es. induction (pending s3) as [|z q IH]; [discriminate|]. cbn [scan] in Es.
    destruct (starts_with z "TFACE") eqn:Ez; [|auto]. injection Es as <- _. exact Ez. }
  apply goto_keyword_suffix in H5. apply suffix_tl in E.
  assert (S : suffix (a5 :: pending s5) (pending s)) by (repeat (eapply suffix_trans; [eassumption|]); apply suffix_refl).
  destruct S as [before S]. exists before, a5, (pending s5). split; [assumption|]. split; [assumption|].
  destruct (sections_tfaces F _ _ _ _ H6 0) as [more [ps [A1 [A2 [A3 [A4 A5]]]]]]; cbn [t_vert_off t_points tl] in *;
    [reflexivity|discriminate|constructor|].
  rewrite A1, A2. cbn [app]. split; [assumption|]. intros v k Hk. rewrite <- (A5 v k Hk). reflexivity.
Qed.
Print Assumptions C16_tface_lookup.
(** Three sections, the second one empty. *)
Definition three_sections : list bytes :=
  [lit "GOCAD TSurf 1"; lit "HEADER {"; lit "}"; lit "TFACE"; lit "VRTX 1 0 0 0"; lit "VRTX 2 1 0 0"; lit "TFACE";
   lit "TFACE"; lit "VRTX 3 0 1 0"; lit "ATOM 4 1"; lit "TRGL 1 2 3"; lit "END"].
Example C16_instance :
  (match read_tsurf ExNum (mkStream three_sections true) with
   | Ok (Some ts, _) => leqb Z.eqb (map (tface_id (t_vert_off ts)) [0; 1; 2; 3]) [0; 0; 2; 2]
   | _ => false
   end) = true /\ sections 0 (skipn 4 three_sections) = [0; 0; 2; 2].
Proof. split; vm_compute; reflexivity. Qed.

(** ** C17 *)

(** The values of the tokens, when they are all numbers. *)
Fixpoint numbers (F : Num) (ts : list bytes) : option (list (num F)) :=
  match ts with
  | [] => Some []
  | t :: r => match atod F t, numbers F r with Some v, Some vs => Some (v :: vs) | _, _ => None end
  end.
(** Consecutive chunks of the given sizes. *)
Fixpoint chunks {A} (sizes : list Z) (l : list A) : list (list A) :=
  match sizes with
  | [] => []
  | e :: es => firstn (Z.to_nat e) l :: chunks es (skipn (Z.to_nat e) l)
  end.
Definition sum (l : list Z) : Z := fold_right Z.add 0 l.

Lemma items_small e : 0 <= e < 256 -> items e = Z.to_nat e.
Proof. intros H. unfold items. now rewrite Z.mod_small. Qed.
Lemma numbers_app F a b : numbers F (a ++ b) =
  match numbers F a, numbers F b with Some x, Some y => Some (x ++ y) | _, _ => None end.
Proof.
  induction a as [|t r IH]; cbn [app numbers]; [now destruct (numbers F b)|]. rewrite IH.
  destruct (atod F t); [|reflexivity]. destruct (numbers F r), (numbers F b); reflexivity.
Qed.
Lemma numbers_length F a xs : numbers F a = Some xs -> List.length xs = List.length a.
Proof.
  revert xs. induction a as [|t r IH]; intros xs; cbn [numbers]; [now intros [= <-]|].
  destruct (atod F t); [|discriminate]. destruct (numbers F r); [|discriminate]. intros [= <-]. cbn. now rewrite IH.
Qed.
Lemma skipn_S {A} (l : list A) p t : nth_error l p = Some t -> skipn p l = t :: skipn (S p) l.
Proof.
  revert p. induction l as [|x r IH]; intros [|p]; cbn [nth_error skipn]; intros H; try discriminate; [congruence|].
  now apply IH.
Qed.
Lemma read_items_spec F tokens n pos :
  read_items F tokens n pos =
    if Nat.leb n (List.length (skipn pos tokens)) then
      match numbers F (firstn n (skipn pos tokens)) with
      | Some xs => Ok (xs, (pos + n)%nat)
      | None => Throw ExData
      end
    else Throw ExData.
Proof.
  revert pos. induction n as [|n IH]; intros pos; cbn [read_items].
  { cbn [Nat.leb firstn numbers]. do 2 f_equal. lia. }
  destruct (Nat.ltb pos (List.length tokens)) eqn:E; cbn [check bind].
  - apply Nat.ltb_lt in E. destruct (nth_error tokens pos) as [t|] eqn:Et; [|apply nth_error_None in Et; lia].
    unfold idx. rewrite Et. cbn [bind]. rewrite (skipn_S _ _ _ Et). cbn [List.length Nat.leb firstn numbers].
    rewrite IH. unfold string_to_double. destruct (atod F t) as [v|]; cbn [bind].
    + destruct (Nat.leb n _); cbn [bind]; [|reflexivity].
      destruct (numbers F (firstn n _)); cbn [bind]; [|reflexivity]. do 2 f_equal. lia.
    + destruct (Nat.leb n _); reflexivity.
  - apply Nat.ltb_ge in E. rewrite skipn_all2 by lia. reflexivity.
Qed.
Lemma skipn_add {A} (l : list A) p q : skipn p (skipn q l) = skipn (q + p) l.
Proof. revert q. induction l as [|x r IH]; intros [|q]; cbn [skipn Nat.add]; auto. now rewrite !skipn_nil. Qed.
Lemma firstn_add {A} (l : list A) p q : firstn (p + q) l = firstn p l ++ firstn q (skipn p l).
Proof. revert p. induction l as [|x r IH]; intros [|p]; cbn [firstn skipn Nat.add app]; auto; [now rewrite firstn_nil|]. now rewrite IH. Qed.

(** C17.  [names], [sizes] and [values] describe the same properties.  A row is accepted iff its first
    [sum sizes] tokens after the coordinates exist and are numbers; otherwise an exception is thrown;
    each property receives its own consecutive values. *)
Theorem C17_property_rows :
  forall (F : Num) (names : list bytes) (sizes : list Z) (values : list (list (num F)))
         (tokens : list bytes) (pos : nat),
    List.length sizes = List.length names -> List.length values = List.length names ->
    Forall (fun e => 0 <= e < 256) sizes ->
    let row := skipn pos tokens in
    let needed := Z.to_nat (sum sizes) in
    match numbers F (firstn needed row) with
    | Some xs =>
        if Nat.leb needed (List.length row)
        then read_properties F names sizes values tokens pos
             = Ok (map (fun p => fst p ++ snd p) (combine values (chunks sizes xs)))
        else read_properties F names sizes values tokens pos = Throw ExData
    | None => read_properties F names sizes values tokens pos = Throw ExData
    end.
Proof.
  intros F names. induction names as [|n ns IH]; intros sizes values tokens pos L1 L2 Hs; cbn zeta.
  { destruct sizes; [|discriminate]. destruct values; [|discriminate]. reflexivity. }
  destruct sizes as [|e es]; [discriminate|]. destruct values as [|v vs]; [discriminate|].
  cbn [List.length] in L1, L2. injection L1 as L1. injection L2 as L2.
  pose proof (Forall_inv Hs) as He. pose proof (Forall_inv_tail Hs) as Hes. cbv beta in He.
  specialize (IH es vs tokens (pos + Z.to_nat e)%nat L1 L2 Hes). cbn zeta in IH.
  cbn [read_properties]. rewrite read_items_spec, items_small by assumption.
  assert (Sp : 0 <= sum es) by (clear -Hes; induction Hes; cbn [sum fold_right]; [lia|unfold sum in *; lia]).
  assert (Es : Z.to_nat (sum (e :: es)) = (Z.to_nat e + Z.to_nat (sum es))%nat).
  { cbn [sum fold_right]. fold (sum es). lia. }
  rewrite Es, firstn_add, skipn_add in *. rewrite numbers_app.
  set (row := skipn pos tokens) in *.
  assert (Lr : List.length (skipn (pos + Z.to_nat e) tokens) = (List.length row - Z.to_nat e)%nat).
  { rewrite <- skipn_add. fold row. apply skipn_length. }
  destruct (Nat.leb (Z.to_nat e) (List.length row)) eqn:E1.
  - apply Nat.leb_le in E1.
    assert (E2 : Nat.leb (Z.to_nat e + Z.to_nat (sum es)) (List.length row) = Nat.leb (Z.to_nat (sum es)) (List.length (skipn (pos + Z.to_nat e) tokens))).
    { rewrite Lr. apply eq_true_iff_eq. rewrite !Nat.leb_le. lia. }
    rewrite E2. destruct (numbers F (firstn (Z.to_nat e) row)) as [xs|] eqn:N1; cbn [bind]; [|reflexivity].
    destruct (numbers F (firstn (Z.to_nat (sum es)) _)) as [ys|] eqn:N2.
    + destruct (Nat.leb (Z.to_nat (sum es)) _) eqn:Q; rewrite IH; cbn [bind]; [|reflexivity].
      cbn [chunks combine map fst snd]. apply numbers_length in N1. rewrite firstn_length, Nat.min_l in N1 by lia.
      assert (F1 : firstn (Z.to_nat e) (xs ++ ys) = xs).
      { rewrite <- N1, firstn_app, firstn_all, Nat.sub_diag, firstn_O. apply app_nil_r. }
      assert (F2 : skipn (Z.to_nat e) (xs ++ ys) = ys).
      { rewrite <- N1, skipn_app, skipn_all, Nat.sub_diag. reflexivity. }
      now rewrite F1, F2.
    + rewrite IH. reflexivity.
  - apply Nat.leb_gt in E1. cbn [bind].
    assert (E2 : Nat.leb (Z.to_nat e + Z.to_nat (sum es)) (List.length row) = false) by (apply Nat.leb_gt; lia).
    rewrite E2. destruct (numbers F (firstn (Z.to_nat e) row)), (numbers F (firstn _ (skipn (pos + Z.to_nat e) tokens))); reflexivity.
Qed.
Print Assumptions C17_property_rows.
Example C17_instance :
  read_properties ExNum [lit "a"; lit "b"] [1; 2] [[7]; [8; 9]] (string_split "PVRTX 1 0 0 0 4 5 6 extra") 5
  = Ok [[7; 4]; [8; 9; 5; 6]] /\
  read_properties ExNum [lit "a"; lit "b"] [1; 2] [[7]; [8; 9]] (string_split "PVRTX 1 0 0 0 4 5") 5 = Throw ExData.
Proof. split; vm_compute; reflexivity. Qed.

(** ** C18 *)

Lemma replace_attr_names {V} n (a : attr V) l x :
  In x (map fst (replace_attr n a l)) <-> x = n \/ In x (map fst l).
Proof.
  induction l as [|[k b] r IH]; cbn [replace_attr map fst In]; [intuition|].
  destruct (beq k n) eqn:E; cbn [map fst In]; [apply beq_eq in E; subst; intuition|]. rewrite IH. intuition.
Qed.
Lemma create_attributes_names F C names es ds vs nb mp (m m' : mesh F C) :
  create_attributes_loop names es ds vs nb mp m = Ok m' ->
  forall x, In x names \/ In x (map fst (m_attrs m)) -> In x (map fst (m_attrs m')).
Proof.
  revert es ds vs m. induction names as [|n ns IH]; intros es ds vs m H x Hx; cbn [create_attributes_loop] in H.
  { injection H as <-. destruct Hx as [[]|Hx]; assumption. }
  destruct es, ds, vs; try discriminate. cbn zeta in H.
  apply bind_ok in H as [a [_ H]]. apply bind_ok in H as [v [_ H]]. eapply IH; [exact H|].
  cbn [set_attr_list m_attrs]. rewrite replace_attr_names. destruct Hx as [[->|Hx]|Hx]; auto.
Qed.
Lemma create_points_names F C ps (m : mesh F C) : map fst (m_attrs (create_points ps m)) = map fst (m_attrs m).
Proof.
  unfold create_points. revert m. induction ps as [|p r IH]; intros m; cbn [fold_left]; [reflexivity|].
  rewrite IH. unfold create_point. cbn [m_attrs]. now rewrite map_map.
Qed.
Lemma set_name_names F C n (m : mesh F C) : m_attrs (set_name n m) = m_attrs m.
Proof. now destruct n. Qed.
Lemma create_triangles_names F ts (m m' : mesh F tri) : foldM create_triangle ts m = Ok m' -> m_attrs m' = m_attrs m.
Proof.
  revert m. induction ts as [|[[a b] c] r IH]; intros m; cbn [foldM]; [now intros [= <-]|].
  intros H. apply bind_ok in H as [m1 [H1 H]]. apply IH in H. unfold create_triangle in H1.
  destruct (_ && _) in H1; [|discriminate]. injection H1 as <-. exact H.
Qed.
Lemma build_surface_names F (m m' : mesh F tri) ts : build_surface m ts = Ok m' ->
  forall x, In x (p_names (t_props ts)) \/ In x (map fst (m_attrs m)) -> In x (map fst (m_attrs m')).
Proof.
  unfold build_surface. cbn zeta. intros H x Hx. apply bind_ok in H as [m2 [H1 H]].
  apply create_triangles_names in H1. eapply create_attributes_names; [exact H|].
  rewrite H1, create_points_names, set_name_names. exact Hx.
Qed.
Lemma build_point_set_names F (m m' : mesh F unit) vs : build_point_set m vs = Ok m' ->
  forall x, In x (p_names (v_props vs)) \/ In x (map fst (m_attrs m)) -> In x (map fst (m_attrs m')).
Proof.
  unfold build_point_set. cbn zeta. intros H x Hx. eapply create_attributes_names; [exact H|].
  rewrite create_points_names, set_name_names. exact Hx.
Qed.
Lemma read_ts_loop_names F f (m m' : mesh F tri) s : read_ts_loop f m s = Ok m' ->
  forall x, In x (map fst (m_attrs m)) -> In x (map fst (m_attrs m')).
Proof.
  revert m s. induction f as [|f IH]; intros m s H x Hx; [discriminate|]. cbn [read_ts_loop] in H.
  apply bind_ok in H as [[[ts|] s1] [_ H]]; [|now injection H as <-].
  apply bind_ok in H as [m1 [H1 H]]. eapply IH; [exact H|]. eapply build_surface_names; eauto.
Qed.
Lemma read_vs_loop_names F f (m m' : mesh F unit) s : read_vs_loop f m s = Ok m' ->
  forall x, In x (map fst (m_attrs m)) -> In x (map fst (m_attrs m')).
Proof.
  revert m s. induction f as [|f IH]; intros m s H x Hx; [discriminate|]. cbn [read_vs_loop] in H.
  apply bind_ok in H as [[[ts|] s1] [_ H]]; [|now injection H as <-].
  apply bind_ok in H as [m1 [H1 H]]. eapply IH; [exact H|]. eapply build_point_set_names; eauto.
Qed.
Lemma tfaces_loop_props F ts ls x : tfaces_loop F ts ls = Ok x -> t_props (fst x) = t_props ts.
Proof.
  revert ts. induction ls as [|l r IH]; intros ts; [discriminate|]. cbn [tfaces_loop]. intros H.
  apply bind_ok in H as [[ts' b] [H1 H]]. apply tface_line_props in H1. cbn [fst] in H1.
  destruct b; [injection H as <-; exact H1|]. apply IH in H. congruence.
Qed.

(** The headers of an object up to its coordinate system: HEADER block, optional CRS block. *)
Definition header_block (hs : list bytes) : Prop :=
  exists first inner last, hs = first :: inner ++ [last] /\ starts_with first "HEADER" = true /\
    Forall (fun l => starts_with l "}" = false) inner /\ starts_with last "}" = true.
Definition crs_block (cs : list bytes) : Prop :=
  cs = [] \/ exists first inner last, cs = first :: inner ++ [last] /\
    starts_with first "GOCAD_ORIGINAL_COORDINATE_SYSTEM" = true /\
    Forall (fun l => starts_with l "END_ORIGINAL_COORDINATE_SYSTEM" = false) inner /\
    starts_with last "END_ORIGINAL_COORDINATE_SYSTEM" = true.

Lemma header_loop_block n inner last r : Forall (fun l => starts_with l "}" = false) inner ->
  starts_with last "}" = true -> exists n', header_loop n (inner ++ last :: r) = Ok (n', r).
Proof.
  intros H He. revert n. induction H as [|l t H1 H2 IH]; intros n; cbn [app header_loop].
  - rewrite He. eauto.
  - rewrite H1. destruct (after_first _ l); apply IH.
Qed.
Lemma read_header_block hs r b : header_block hs ->
  exists n, read_header (mkStream (hs ++ r) b) = Ok (n, mkStream r b).
Proof.
  intros [first [inner [last [-> [H1 [H2 H3]]]]]]. unfold read_header, check_keyword. cbn [app pending].
  rewrite H1. cbn [bind pending nl]. rewrite <- app_assoc. cbn [app].
  destruct (header_loop_block None inner last r H2 H3) as [n E]. rewrite E. cbn [bind]. eauto.
Qed.
Lemma crs_loop_block c inner last r x : Forall (fun l => starts_with l "END_ORIGINAL_COORDINATE_SYSTEM" = false) inner ->
  starts_with last "END_ORIGINAL_COORDINATE_SYSTEM" = true -> crs_loop c (inner ++ last :: r) = Ok x -> snd x = r.
Proof.
  intros H He. revert c. induction H as [|l t H1 H2 IH]; intros c; cbn [app crs_loop].
  - rewrite He. now intros [= <-].
  - rewrite H1. intros E. apply bind_ok in E as [c' [_ E]]. now apply IH in E.
Qed.
Lemma read_CRS_block cs lp r b x : crs_block cs -> starts_with lp "PROPERTIES" = true ->
  read_CRS (mkStream (cs ++ lp :: r) b) = Ok x -> snd x = mkStream (lp :: r) b.
Proof.
  intros [->|[first [inner [last [-> [H1 [H2 H3]]]]]]] Hp; unfold read_CRS, next_if; cbn [app pending].
  - destruct lp as [|c lp]; [discriminate|]. cbn [starts_with lit list_ascii_of_string] in Hp |- *.
    apply andb_true_iff in Hp as [Hc _]. apply Ascii.eqb_eq in Hc. subst c. cbn. now intros [= <-].
  - rewrite H1. cbn [pending nl]. rewrite <- app_assoc. cbn [app]. intros E.
    apply bind_ok in E as [[c rr] [E1 E]]. apply crs_loop_block in E1; [|assumption..]. cbn [snd] in E1. subst rr.
    now injection E as <-.
Qed.
Lemma read_prop_header_names F lp r b x k names : starts_with lp "PROPERTIES" = true ->
  split_quotes lp = Ok (k :: names) -> read_prop_header F [] (mkStream (lp :: r) b) = Ok x -> p_names (fst x) = names.
Proof.
  intros Hp Hs. unfold read_prop_header, next_if. cbn [app pending]. rewrite Hp, Hs. cbn [bind List.length pred].
  destruct (Nat.eqb _ 0) eqn:En.
  { intros E. injection E as <-. cbn. destruct names; [reflexivity|discriminate]. }
  intros E. apply bind_ok in E as [ns [E0 E]].
  repeat match type of E with bind _ _ = _ => apply bind_ok in E as [[? ?] [_ E]] end.
  injection E as <-. cbn [fst p_names]. apply mapM_ok in E0. clear -E0.
  assert (G : forall pre, Forall2 (fun a b => idx (k :: pre ++ names) (a + 1) = Ok b) (seq (List.length pre) (List.length names)) ns -> ns = names).
  { clear E0. revert ns. induction names as [|n t IH]; intros ns pre H; cbn [List.length seq] in H; inversion H; subst; [reflexivity|].
    f_equal.
    - unfold idx in H2. rewrite Nat.add_1_r in H2. cbn [nth_error] in H2.
      rewrite nth_error_app2, Nat.sub_diag in H2 by lia. cbn in H2. congruence.
    - apply (IH l' (pre ++ [n])). rewrite <- app_assoc, app_length, Nat.add_1_r. exact H4. }
  apply (G []). exact E0.
Qed.

(** C18 is false: one line between the coordinate system and PROPERTIES (as in
    tests/data/points.vs) and the declared properties are silently ignored. *)
Definition feature_vs : list bytes :=
  [lit "GOCAD VSet 1"; lit "HEADER {"; lit "name:points"; lit "}";
   lit "GOCAD_ORIGINAL_COORDINATE_SYSTEM"; lit "NAME Default"; lit "END_ORIGINAL_COORDINATE_SYSTEM";
   lit "GEOLOGICAL_FEATURE top";
   lit "PROPERTIES depth"; lit "PROP_LEGAL_RANGES **none** **none**"; lit "NO_DATA_VALUES -99999";
   lit "PROPERTY_CLASSES depth"; lit "PROPERTY_KINDS unknown"; lit "PROPERTY_SUBCLASSES QUANTITY Float";
   lit "ESIZES 1"; lit "UNITS none"; lit "PVRTX 1 0 0 0 12"; lit "END"].
Lemma feature_loaded : mesh_is (fun _ _ => true) (read_vs ExNum (unlines feature_vs)) (Some (lit "points"))
  [(0, 0, 0)] [] [] = true.
Proof. vm_compute. reflexivity. Qed.
Theorem C18_declared_properties_refuted :
  exists (F : Num) (ls : list bytes) (lp : bytes) (names : list bytes) (m : mesh F unit),
    num_ok F /\ In lp ls /\ starts_with lp "PROPERTIES" = true /\
    split_quotes lp = Ok (lit "PROPERTIES" :: names) /\ names <> [] /\
    read_vs F (unlines ls) = Ok m /\ m_points m <> [] /\ forall n, In n names -> ~ In n (map fst (m_attrs m)).
Proof.
  assert (U : forall x y : unit, (fun _ _ : unit => true) x y = true -> x = y) by (now intros [] []).
  destruct (mesh_is_ok _ _ _ _ _ _ U feature_loaded) as [m [R [_ [P [_ A]]]]].
  exists ExNum, feature_vs, (lit "PROPERTIES depth"), [lit "depth"], m.
  split; [apply ExNum_ok|]. split; [simpl; tauto|]. split; [reflexivity|]. split; [reflexivity|].
  split; [discriminate|]. split; [assumption|]. split; [rewrite P; discriminate|].
  intros n _. unfold attrs_of in A. destruct (m_attrs m); [intros []|discriminate].
Qed.
Print Assumptions C18_declared_properties_refuted.

(** C18, what holds: when PROPERTIES is the line right after the coordinate system block (or after the
    header block when there is no coordinate system), every declared property is loaded.  Missing: any
    other position of the PROPERTIES line. *)
Theorem C18_declared_properties_partial :
  forall (F : Num) (first : bytes) (hs cs : list bytes) (lp : bytes) (names rest : list bytes),
    header_block hs -> crs_block cs -> starts_with lp "PROPERTIES" = true ->
    split_quotes lp = Ok (lit "PROPERTIES" :: names) ->
    let ls := first :: hs ++ cs ++ lp :: rest in
    Forall (fun l => ~ In LF l) ls ->
    (starts_with first "GOCAD VSet" = true -> forall m, read_vs F (unlines ls) = Ok m ->
       forall n, In n names -> In n (map fst (m_attrs m))) /\
    (starts_with first "GOCAD TSurf" = true -> forall m, read_ts F (unlines ls) = Ok m ->
       forall n, In n names -> In n (map fst (m_attrs m))).
Proof.
  intros F first hs cs lp names rest Hh Hc Hp Hs ls Hl. subst ls. split; intros Hf m Hm n Hn.
  - unfold read_vs in Hm. rewrite open_unlines in Hm by assumption.
    set (f := List.length _) in Hm. clearbody f. cbn [read_vs_loop] in Hm.
    apply bind_ok in Hm as [[o s1] [H1 Hm]]. unfold read_vs_points, goto_if in H1. cbn [pending scan] in H1.
    rewrite Hf in H1. cbn [nl] in H1.
    destruct (read_header_block hs (cs ++ lp :: rest) true Hh) as [name E]. rewrite E in H1. cbn [bind] in H1.
    apply bind_ok in H1 as [[crs s3] [H3 H1]]. apply read_CRS_block in H3; [|assumption..]. cbn [snd] in H3. subst s3.
    apply bind_ok in H1 as [[props s4] [H4 H1]]. eapply read_prop_header_names in H4; [|eassumption..]. cbn [fst] in H4.
    apply bind_ok in H1 as [[vs s5] [H5 H1]]. injection H1 as <- <-. apply bind_ok in Hm as [m1 [Hb Hm]].
    eapply read_vs_loop_names; [exact Hm|]. eapply build_point_set_names; [exact Hb|]. left.
    unfold read_VSet_vertices in H5. apply bind_ok in H5 as [[l6 s6] [_ H5]]. apply bind_ok in H5 as [[v7 r7] [H7 H5]].
    injection H5 as <- <-. apply vset_loop_props in H7. cbn [fst] in H7. rewrite H7. cbn [v_props]. now rewrite H4.
  - unfold read_ts in Hm. rewrite open_unlines in Hm by assumption.
    set (f := List.length _) in Hm. clearbody f. cbn [read_ts_loop] in Hm.
    apply bind_ok in Hm as [[o s1] [H1 Hm]]. unfold read_tsurf, goto_if in H1. cbn [pending scan] in H1.
    rewrite Hf in H1. cbn [nl] in H1.
    destruct (read_header_block hs (cs ++ lp :: rest) true Hh) as [name E]. rewrite E in H1. cbn [bind] in H1.
    apply bind_ok in H1 as [[crs s3] [H3 H1]]. apply read_CRS_block in H3; [|assumption..]. cbn [snd] in H3. subst s3.
    apply bind_ok in H1 as [[props s4] [H4 H1]]. eapply read_prop_header_names in H4; [|eassumption..]. cbn [fst] in H4.
    apply bind_ok in H1 as [[vs s5] [H5 H1]]. injection H1 as <- <-. apply bind_ok in Hm as [m1 [Hb Hm]].
    eapply read_ts_loop_names; [exact Hm|]. eapply build_surface_names; [exact Hb|]. left.
    unfold read_tfaces in H5. apply bind_ok in H5 as [[l6 s6] [_ H5]]. apply bind_ok in H5 as [[v7 r7] [H7 H5]].
    injection H5 as <- <-. apply tfaces_loop_props in H7. cbn [fst] in H7. rewrite H7. cbn [t_props]. now rewrite H4.
Qed.
Print Assumptions C18_declared_properties_partial.
Example C18_instance :
  header_block [lit "HEADER {"; lit "name:points"; lit "}"] /\
  crs_block [lit "GOCAD_ORIGINAL_COORDINATE_SYSTEM"; lit "NAME Default"; lit "END_ORIGINAL_COORDINATE_SYSTEM"] /\
  mesh_is (fun _ _ => true) (read_vs ExNum (unlines (firstn 7 feature_vs ++ skipn 8 feature_vs))) (Some (lit "points"))
  [(0, 0, 0)] [] [(lit "depth", [[12]])] = true.
Proof.
  split; [|split].
  - exists (lit "HEADER {"), [lit "name:points"], (lit "}"). repeat split; repeat constructor.
  - right. exists (lit "GOCAD_ORIGINAL_COORDINATE_SYSTEM"), [lit "NAME Default"], (lit "END_ORIGINAL_COORDINATE_SYSTEM").
    repeat split; repeat constructor.
  - vm_compute. reflexivity.
Qed.

(** ** C54 *)

Lemma scan_some p ls : (exists l r, scan p ls = Some (l, r)) <-> exists l, In l ls /\ p l = true.
Proof.
  induction ls as [|x t IH]; cbn [scan In].
  - split; [intros [l [r H]]; discriminate|intros [l [[] _]]].
  - destruct (p x) eqn:E.
    + split; [eauto|]. intros _. eauto.
    + rewrite IH. split; intros [l [H1 H2]]; exists l; [auto|]. destruct H1 as [->|H1]; [congruence|auto].
Qed.
Lemma loadable_iff kw text : loadable kw text = true <->
  exists l, In l (pending (open_text text)) /\ starts_with l kw = true.
Proof.
  rewrite <- scan_some. unfold loadable, goto_if.
  destruct (scan _ (pending (open_text text))) as [[l r]|]; split; eauto; try discriminate.
  intros [l [r H]]. discriminate.
Qed.
Lemma loadable_goto kw text : loadable kw text = true ->
  exists l s, goto_if kw (open_text text) = (Some l, s).
Proof. unfold loadable. destruct (goto_if kw (open_text text)) as [[l|] s]; [eauto|discriminate]. Qed.
Lemma loadable_goto_none kw text : loadable kw text = false ->
  exists s, goto_if kw (open_text text) = (None, s).
Proof. unfold loadable. destruct (goto_if kw (open_text text)) as [[l|] s]; [discriminate|eauto]. Qed.

(** C54, mesh readers.  A file is announced loadable iff one of its lines starts with the keyword of the
    object; when it is not, loading gives an empty mesh; when it is, the reader does not report that there
    is nothing to read. *)
Theorem C54_mesh_loadable :
  forall (F : Num) (text : bytes),
    let line_with kw := exists l, In l (pending (open_text text)) /\ starts_with l kw = true in
    (loadable "GOCAD TSurf" text = true <-> line_with (lit "GOCAD TSurf")) /\
    (loadable "GOCAD VSet" text = true <-> line_with (lit "GOCAD VSet")) /\
    (loadable "GOCAD PLine" text = true <-> line_with (lit "GOCAD PLine")) /\
    (loadable "GOCAD TSurf" text = false -> read_ts F text = Ok empty_mesh) /\
    (loadable "GOCAD VSet" text = false -> read_vs F text = Ok empty_mesh) /\
    (loadable "GOCAD PLine" text = false -> read_pl F text = Ok empty_mesh) /\
    (loadable "GOCAD TSurf" text = true -> forall s, read_tsurf F (open_text text) <> Ok (None, s)) /\
    (loadable "GOCAD VSet" text = true -> forall s, read_vs_points F (open_text text) <> Ok (None, s)) /\
    (loadable "GOCAD PLine" text = true -> forall s, read_ecurve F (open_text text) <> Ok (None, s)).
Proof.
  intros F text. cbn zeta. repeat (split; [apply loadable_iff|]). repeat split.
  - intros H. apply loadable_goto_none in H as [s E]. unfold read_ts. cbn [read_ts_loop]. unfold read_tsurf. now rewrite E.
  - intros H. apply loadable_goto_none in H as [s E]. unfold read_vs. cbn [read_vs_loop]. unfold read_vs_points. now rewrite E.
  - intros H. apply loadable_goto_none in H as [s E]. unfold read_pl. cbn [read_pl_loop]. unfold read_ecurve. now rewrite E.
  - intros H s. apply loadable_goto in H as [l [s1 E]]. unfold read_tsurf. rewrite E. intros H.
    repeat match type of H with bind _ _ = _ => apply bind_ok in H as [[? ?] [_ H]] end. discriminate.
  - intros H s. apply loadable_goto in H as [l [s1 E]]. unfold read_vs_points. rewrite E. intros H.
    repeat match type of H with bind _ _ = _ => apply bind_ok in H as [[? ?] [_ H]] end. discriminate.
  - intros H s. apply loadable_goto in H as [l [s1 E]]. unfold read_ecurve. rewrite E. intros H.
    repeat match type of H with bind _ _ = _ => apply bind_ok in H as [[? ?] [_ H]] end. discriminate.
Qed.
Print Assumptions C54_mesh_loadable.
Example C54_mesh_instance :
  loadable "GOCAD VSet" (unlines feature_vs) = true /\ loadable "GOCAD TSurf" (unlines feature_vs) = false.
Proof. split; vm_compute; reflexivity. Qed.
