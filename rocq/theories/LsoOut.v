(** * No undefined behaviour when a solid (.lso) is loaded: the conditions on the lines, and the reader under them. *)
From Coq Require Import ZArith List Lia Bool Ascii String.
From Verif Require Import Base Text TextFacts GocadModel MeshModel TsModel Spec GocadFacts TsFacts StreamFacts
  PropsGocad Grammar GrammarFacts GocadSafe LsoModel LsoFacts LsoRead LsoRound LsoEnds LsoAttrs MultiFacts MultiMore.
Import ListNotations.
Local Open Scope string_scope.
Local Open Scope list_scope.
Local Open Scope Z_scope.

(** ** The conditions *)
(** The property sections with a prefix: as in [properties_ok] and [sizes_ok], each keyword with the prefix. *)
Definition section_ok (p : bytes) (ls : list bytes) : Prop :=
  forall pre l post sl, ls = pre ++ l :: post -> starts_with l (p ++ lit "PROPERTIES") = true -> split_quotes l = Ok sl ->
    sections_enough (pred (List.length sl)) (map (fun e => (p ++ fst e, snd e)) property_lines) post.
Definition section_sizes (p : bytes) (ls : list bytes) : Prop :=
  forall l t v, In l ls -> starts_with l (p ++ lit "ESIZES") = true -> In t (string_split l) -> string_to_index t = Ok v -> 0 <= v < 256.
Definition header_lines_ok (ls : list bytes) : Prop :=
  Forall shaped ls /\ (section_ok [] ls /\ section_sizes [] ls) /\ section_ok "TETRA_" ls /\ section_sizes "TETRA_" ls.

(** [word l k n]: word [k] of line [l] (from 0) is the number [n]. *)
Definition word (l : bytes) (k : nat) (n : Z) : Prop := exists t, nth_error (string_split l) k = Some t /\ string_to_index t = Ok n.
Definition has_words (n : nat) (l : bytes) : Prop := (n <= List.length (string_split l))%nat.

(** The vertices: the first line that starts with VRTX or PVRTX and the following ones, as long as they contain VRTX. *)
Definition vertex_start (l : bytes) : Prop := starts_with l "VRTX" = true \/ starts_with l "PVRTX" = true.
Record vertex_run (ls vl rest : list bytes) : Prop := {
  vr_pre : exists pre, ls = pre ++ vl ++ rest /\ Forall (fun l => ~ vertex_start l) pre;
  vr_first : exists l r, vl = l :: r /\ vertex_start l /\ Forall (fun x => contains x "VRTX" = true) r;
  vr_next : forall l r, rest = l :: r -> contains l "VRTX" = false
}.
Definition plain_lines (vl : list bytes) : list bytes := filter (fun l => negb (starts_with l "SHARED")) vl.
(** A line SHARED... refers to a vertex defined by one of the lines before it. *)
Definition vertex_fits (before : list bytes) (l : bytes) : Prop :=
  if starts_with l "SHARED"
  then has_words 3 l /\ forall n, word l 2 n -> 1 <= n <= lenz (plain_lines before)
  else has_words 5 l.
Definition vertices_fit (vl : list bytes) : Prop := forall a l b, vl = a ++ l :: b -> vertex_fits a l.

(** The lines after the region indicators, if there are some. *)
Definition after_indicators (kind : bytes) (ls ls' : list bytes) : Prop :=
  match ls with
  | [] => ls' = []
  | l :: r => if starts_with l (lit "BEGIN_" ++ kind ++ lit "_REGION_INDICATORS")
              then exists e, first_line (lit "END_" ++ kind ++ lit "_REGION_INDICATORS") r e ls'
              else ls' = ls
  end.

(** The cells: pairs of lines.  The first pair is taken whatever it is, the next ones as long as they start with TETRA. *)
Notation cell := (bytes * bytes)%type.
Record cells_run (ls : list bytes) (cells : list cell) (after : list bytes) : Prop := {
  cr_lines : ls = flat_map (fun c => [fst c; snd c]) cells ++ after;
  cr_first : exists c r, cells = c :: r /\ Forall (fun c => starts_with (fst c) "TETRA" = true) r;
  cr_next : forall l r, after = l :: r -> starts_with l "TETRA" = false
}.
Definition cell_fits (nb_vertices : Z) (c : cell) : Prop :=
  has_words 5 (fst c) /\ has_words 3 (snd c) /\
  forall k n, (1 <= k <= 4)%nat -> word (fst c) k n -> 1 <= n <= nb_vertices.
(** The corners and the block of a cell. *)
Definition cell_corner (c : cell) (n : Z) : Prop := exists k, (1 <= k <= 4)%nat /\ word (fst c) k n.
Definition cell_in (name : bytes) (c : cell) : Prop := nth_error (string_split (snd c)) 2 = Some name.
Definition cell_inb (name : bytes) (c : cell) : bool :=
  match nth_error (string_split (snd c)) 2 with Some x => beq x name | None => false end.

(** The triangles and the regions. *)
Definition triangle_fits (nb_plain : Z) (l : bytes) : Prop :=
  has_words 4 l /\ forall k n, (1 <= k <= 3)%nat -> word l k n -> 1 <= n <= nb_plain.
Definition after_fits (nb_plain : Z) (after : list bytes) : Prop :=
  Forall (fun l => (starts_with l "TRGL" = true -> triangle_fits nb_plain l) /\
                   (starts_with l "MODEL_REGION" = true -> has_words 2 l)) after.
(** With properties of the tetrahedra, the reader uses the numbers of the vertices as numbers of cells (C47). *)
Definition cells_enough (cells : list cell) (after : list bytes) : Prop :=
  (forall c n, In c cells -> cell_corner c n -> n <= lenz cells) /\
  forall l name ns, In l after -> starts_with l "MODEL_REGION" = true -> nth_error (string_split l) 1 = Some name ->
    NoDup ns -> (forall n, In n ns -> exists c, In c cells /\ cell_in name c /\ cell_corner c n) ->
    lenz ns <= lenz (filter (cell_inb name) cells).

Record solid_fits (no_tetra_property : Prop) (ls : list bytes) : Prop := {
  sf_vertices : forall vl rest, vertex_run ls vl rest -> vertices_fit vl;
  sf_cells : forall vl rest ls', vertex_run ls vl rest -> after_indicators "VERTEX" rest ls' ->
    exists cells after, cells_run ls' cells after /\ Forall (cell_fits (lenz vl)) cells /\
      after_fits (lenz (plain_lines vl)) after /\ (no_tetra_property \/ cells_enough cells after)
}.

(** The headers of the file: the properties of the tetrahedra and the lines that follow. *)
Definition lso_head (F : Num) (text : bytes) : res (PropHeader (num F) * list bytes) :=
  match goto_if "GOCAD LightTSolid" (open_text text) with
  | (None, _) => Throw ExData
  | (Some _, s0) =>
      do '(_, s1) <- read_header s0;
      do '(_, s2) <- read_CRS s1;
      do '(_, s3) <- read_prop_header F [] s2;
      do '(tprops, s4) <- read_prop_header F "TETRA_" s3;
      Ok (tprops, pending s4)
  end.

(** ** Property headers *)
Lemma header_lines_suffix a b : suffix b a -> header_lines_ok a -> header_lines_ok b.
Proof.
  intros [p ->] [H1 [[H2 H3] [H4 H5]]].
  assert (G : forall q, section_ok q (p ++ b) -> section_ok q b).
  { intros q H pre l post sl E. apply (H (p ++ pre)). now rewrite E, app_assoc. }
  assert (G' : forall q, section_sizes q (p ++ b) -> section_sizes q b).
  { intros q H l t v Hi. apply H. apply in_or_app. now right. }
  split; [now apply Forall_app in H1|]. split; [split; [apply G|apply G']|split; [apply G|apply G']]; assumption.
Qed.
Section Safe.
Context (F : Num).
Lemma prop_header_noub p s : Forall shaped (pending s) -> section_ok p (pending s) -> section_sizes p (pending s) ->
  read_prop_header F p s <> UB /\ forall x, read_prop_header F p s = Ok x -> head_ok F (fst x).
Proof.
  intros W P Z. unfold read_prop_header, next_if.
  assert (E0 : head_ok F empty_prop) by (split; [reflexivity|split; [reflexivity|constructor]]).
  destruct (pending s) as [|l r] eqn:Es; [split; [discriminate|intros x H; injection H as <-; exact E0]|].
  destruct (starts_with l (p ++ lit "PROPERTIES")) eqn:El; [|split; [discriminate|intros x H; injection H as <-; exact E0]].
  pose proof (Forall_inv W) as [k [t [Ek [Hk [Hb _]]]]].
  destruct (balanced_ok _ Hb) as [sl Hsl].
  assert (Q : split_quotes l = Ok sl) by (unfold split_quotes; now rewrite Ek).
  rewrite Q. cbn [bind]. specialize (P [] l r sl eq_refl El Q).
  destruct (Nat.eqb (pred (List.length sl)) 0); [split; [discriminate|intros x H; injection H as <-; exact E0]|].
  set (n := pred (List.length sl)) in *. cbn [property_lines map fst snd sections_enough] in P.
  set (s1 := mkStream r (nl s)). change r with (pending s1) in P.
  destruct (mapM (fun i => idx sl (i + 1)) (seq 0 n)) as [names| | |] eqn:E1; cbn [bind]; try (split; discriminate).
  2:{ exfalso. revert E1. apply mapM_noub. intros i Hi. apply in_seq in Hi. apply idx_noub. lia. }
  destruct (kw_two_strings (p ++ lit "PROP_LEGAL_RANGES") n s1) as [[v2 s2]| | |] eqn:E2; cbn [bind]; try (split; discriminate).
  2:{ exfalso. revert E2. apply kw_two_strings_noub. intros x y H. now apply (P x y). }
  destruct (kw_first_of _ _ _ _ _ E2) as [l2 [L2 _]]. destruct (P _ _ L2) as [_ P3].
  destruct (kw_one_double F (p ++ lit "NO_DATA_VALUES") n s2) as [[v3 s3]| | |] eqn:E3; cbn [bind]; try (split; discriminate).
  2:{ exfalso. revert E3. apply kw_one_double_noub. intros x y H. now apply (P3 x y). }
  destruct (kw_first_of _ _ _ _ _ E3) as [l3 [L3 G3]]. destruct (P3 _ _ L3) as [_ P4].
  destruct (kw_one_string (p ++ lit "PROPERTY_CLASSES") n s3) as [[v4 s4]| | |] eqn:E4; cbn [bind]; try (split; discriminate).
  2:{ exfalso. revert E4. apply kw_one_string_noub. intros x y H. now apply (P4 x y). }
  unfold kw_one_string in E4. apply bind_ok in E4 as [[l4 s4'] [L4 E4]]. apply scan_first in L4. destruct (P4 _ _ L4) as [_ P5].
  apply bind_ok in E4 as [q4 [_ E4]]. apply bind_ok in E4 as [d4 [_ E4]]. assert (s4' = s4) as -> by congruence.
  destruct (kw_one_string (p ++ lit "PROPERTY_KINDS") n s4) as [[v5 s5]| | |] eqn:E5; cbn [bind]; try (split; discriminate).
  2:{ exfalso. revert E5. apply kw_one_string_noub. intros x y H. now apply (P5 x y). }
  unfold kw_one_string in E5. apply bind_ok in E5 as [[l5 s5'] [L5 E5]]. apply scan_first in L5. destruct (P5 _ _ L5) as [_ P6].
  apply bind_ok in E5 as [q5 [_ E5]]. apply bind_ok in E5 as [d5 [_ E5]]. assert (s5' = s5) as -> by congruence.
  destruct (kw_two_strings (p ++ lit "PROPERTY_SUBCLASSES") n s5) as [[v6 s6]| | |] eqn:E6; cbn [bind]; try (split; discriminate).
  2:{ exfalso. revert E6. apply kw_two_strings_noub. intros x y H. now apply (P6 x y). }
  destruct (kw_first_of _ _ _ _ _ E6) as [l6 [L6 _]]. destruct (P6 _ _ L6) as [_ P7].
  destruct (kw_one_index (p ++ lit "ESIZES") n s6) as [[v7 s7]| | |] eqn:E7; cbn [bind]; try (split; discriminate).
  2:{ exfalso. revert E7. apply kw_one_index_noub. intros x y H. now apply (P7 x y). }
  destruct (kw_first_of _ _ _ _ _ E7) as [l7 [L7 G7]]. destruct (P7 _ _ L7) as [_ P8].
  destruct (kw_one_string (p ++ lit "UNITS") n s7) as [[v8 s8]| | |] eqn:E8; cbn [bind]; try (split; discriminate).
  2:{ exfalso. revert E8. apply kw_one_string_noub. intros x y H. now apply (P8 x y). }
  split; [discriminate|]. intros x H. injection H as <-. unfold head_ok. cbn [fst p_esizes p_names p_ndv].
  pose proof (mapM_length _ _ _ E1) as N1. pose proof (mapM_length _ _ _ G3) as N3. pose proof (mapM_length _ _ _ G7) as N7.
  rewrite N1, N3, N7. split; [reflexivity|]. split; [reflexivity|].
  assert (I7 : In l7 (l :: r)).
  { assert (G : forall kw ls x post, first_line kw ls x post -> forall y, In y post \/ y = x -> In y ls).
    { intros kw ls x post [pre [-> _]] y [Hy| ->]; apply in_or_app; right; [now right|now left]. }
    right. change r with (pending s1).
    apply (G _ _ _ _ L2); left. apply (G _ _ _ _ L3); left. apply (G _ _ _ _ L4); left. apply (G _ _ _ _ L5); left.
    apply (G _ _ _ _ L6); left. apply (G _ _ _ _ L7). now right. }
  apply mapM_ok in G7. destruct L7 as [pre [_ [S7 _]]]. apply Forall_forall. intros e He.
  clear -G7 He Z I7 S7. induction G7 as [|i e' a b H1 H2 IH]; [contradiction|]. destruct He as [<-|He]; [|now apply IH].
  apply bind_ok in H1 as [tk [H1 H3]]. apply (Z l7 tk); auto. unfold idx in H1.
  destruct (nth_error (string_split l7) (i + 1)) as [q|] eqn:Q; [|discriminate]. assert (q = tk) as -> by congruence.
  eapply nth_error_In. exact Q.
Qed.

(** ** Vertices *)
Lemma tok_word l k o v : tok_index o (string_split l) k = Ok v -> exists n, word l k n /\ v = sub32 n o.
Proof.
  unfold tok_index. intros E. apply bind_ok in E. destruct E as [t [E1 E]]. apply bind_ok in E. destruct E as [n [E2 E]].
  exists n. split; [|congruence]. exists t. split; [|exact E2]. unfold idx in E1. destruct (nth_error _ k); congruence.
Qed.
Lemma word_index l k n hi : word l k n -> (word l k n -> 1 <= n <= hi) -> sub32 n 1 = n - 1 /\ 0 <= n - 1 < hi.
Proof.
  intros W H. specialize (H W). destruct W as [t [_ W]]. apply number_range in W. unfold sub32, wrap32, two32 in *. split; [apply Z.mod_small; lia|lia].
Qed.
Lemma idxz_in {A} (l : list A) i : 0 <= i < lenz l -> idxz l i <> UB.
Proof. intros H. destruct (nthz_in_range l i H) as [x Hx]. apply idxz_ok in Hx. rewrite Hx. discriminate. Qed.
(** The solid after the lines [done]. *)
Record state_ok (h : PropHeader (num F)) (done : list bytes) (sv : SolidV F) : Prop := {
  so_inv : solid_inv sv;
  so_points : lenz (sv_points sv) = lenz done;
  so_map : lenz (sv_map sv) = lenz (plain_lines done);
  so_vals : rows F h (List.length done) (sv_vals sv)
}.
Lemma plain_snoc a l : plain_lines (a ++ [l]) = plain_lines a ++ (if starts_with l "SHARED" then [] else [l]).
Proof. unfold plain_lines. rewrite filter_app. cbn [filter]. now destruct (starts_with l "SHARED"). Qed.
Lemma plain_le a : lenz (plain_lines a) <= lenz a.
Proof. unfold plain_lines, lenz. induction a as [|x a IH]; cbn [filter List.length]; [lia|]. destruct (negb _); cbn [List.length]; lia. Qed.
Lemma vertex_safe crs h done sv l : head_ok F h -> state_ok h done sv -> vertex_fits done l ->
  lso_vertex F crs h sv l <> UB /\ forall sv', lso_vertex F crs h sv l = Ok sv' -> state_ok h (done ++ [l]) sv'.
Proof.
  intros [K1 [K2 K3]] [I P M V] HF.
  assert (R : forall pos, read_properties F (p_names h) (p_esizes h) (sv_vals sv) (string_split l) pos <> UB /\
    forall x, read_properties F (p_names h) (p_esizes h) (sv_vals sv) (string_split l) pos = Ok x -> rows F h (List.length (done ++ [l])) x).
  { intros pos. destruct (read_properties_noub F (List.length done) (string_split l) (p_names h) (p_esizes h) (sv_vals sv) pos K1 K3 V) as [R1 R2].
    split; [exact R1|]. intros x E. rewrite app_length. cbn [List.length]. rewrite Nat.add_1_r. now apply R2. }
  unfold vertex_fits in HF. split.
  - unfold lso_vertex. destruct (starts_with l "SHARED").
    + destruct HF as [H1 H2]. unfold has_words in H1. apply bind_noub; [apply tok_index_noub; lia|]. intros u Eu.
      apply tok_word in Eu. destruct Eu as [n [W ->]]. destruct (word_index _ _ _ _ W (H2 n)) as [-> Hn]. pose proof (plain_le done).
      apply bind_noub; [apply idxz_in; lia|]. intros p _. apply bind_noub; [apply R|]. intros vals _.
      apply bind_noub; [apply idxz_in; lia|]. intros m _. destruct (setz_total (sv_map sv) (n - 1) (m ++ [lenz (sv_points sv)]) ltac:(lia)) as [mp ->]. cbn [bind]. discriminate.
    + unfold has_words in HF. apply bind_noub; [apply vrtx_point_noub; lia|]. intros p _. apply bind_noub; [apply R|]. discriminate.
  - intros sv' E. pose proof (lso_vertex_inv _ _ _ _ _ I E) as I'. unfold lso_vertex in E. destruct (starts_with l "SHARED") eqn:ES.
    + apply bind_ok in E. destruct E as [u [_ E]]. apply bind_ok in E. destruct E as [p [_ E]].
      apply bind_ok in E. destruct E as [vals [EV E]]. apply bind_ok in E. destruct E as [m [El E]].
      apply bind_ok in E. destruct E as [mp [Em E]]. assert (sv' = mkSolidV (sv_points sv ++ [p]) (sv_uid sv ++ [u]) mp vals) as -> by congruence.
      apply setz_nthz in Em. destruct Em as [Lm _]. split; cbn [sv_points sv_map sv_vals].
      * exact I'.
      * rewrite !lenz_app, P. reflexivity.
      * rewrite plain_snoc, ES, app_nil_r, Lm. exact M.
      * now apply (proj2 (R 3%nat)).
    + apply bind_ok in E. destruct E as [p [_ E]]. apply bind_ok in E. destruct E as [vals [EV E]].
      assert (sv' = mkSolidV (sv_points sv ++ [p]) (sv_uid sv ++ [lenz (sv_map sv)]) (sv_map sv ++ [[lenz (sv_points sv)]]) vals) as -> by congruence.
      split; cbn [sv_points sv_map sv_vals].
      * exact I'.
      * rewrite !lenz_app, P. reflexivity.
      * rewrite plain_snoc, ES, !lenz_app, M. reflexivity.
      * now apply (proj2 (R 5%nat)).
Qed.
Lemma vertices_safe crs h : head_ok F h -> forall ls done sv line, state_ok h done sv ->
  (forall vl rest, ls = vl ++ rest -> Forall (fun x => contains x "VRTX" = true) vl -> (forall l r, rest = l :: r -> contains l "VRTX" = false) -> vertices_fit (done ++ line :: vl)) ->
  lso_vertices F crs h sv line true ls <> UB /\
  forall sv' l' s', lso_vertices F crs h sv line true ls = Ok (sv', l', s') -> exists vl rest, ls = vl ++ rest /\
    Forall (fun x => contains x "VRTX" = true) vl /\ (forall l r, rest = l :: r -> contains l "VRTX" = false) /\ state_ok h (done ++ line :: vl) sv' /\
    match rest with [] => l' = [] /\ s' = mkStream [] false | l :: r => l' = l /\ s' = mkStream r true end.
Proof.
  intros Hh. induction ls as [|l ls IH]; intros done sv line I HV; cbn [lso_vertices].
  - assert (vertex_fits done line) as Hf by (apply (HV [] [] eq_refl (Forall_nil _) ltac:(discriminate) done line []); reflexivity).
    destruct (vertex_safe crs h done sv line Hh I Hf) as [N S1]. split; [apply bind_noub; [exact N|discriminate]|].
    intros sv' l' s' E. apply bind_ok in E. destruct E as [sv1 [E1 E]]. exists [], []. split; [reflexivity|]. split; [constructor|]. split; [discriminate|].
    assert (sv' = sv1 /\ l' = [] /\ s' = mkStream [] false) as [-> [-> ->]] by (repeat split; congruence). split; [now apply S1|auto].
  - assert (vertex_fits done line) as Hf.
    { assert (G : exists vl rest, l :: ls = vl ++ rest /\ Forall (fun x => contains x "VRTX" = true) vl /\ (forall a r, rest = a :: r -> contains a "VRTX" = false)).
      { clear. generalize (l :: ls) as x. clear. induction x as [|a x [vl [rest [E [H1 H2]]]]].
        - exists [], []. split; [reflexivity|]. split; [constructor|discriminate].
        - destruct (contains a "VRTX") eqn:Ea.
          + exists (a :: vl), rest. split; [now rewrite E|]. split; [now constructor|assumption].
          + exists [], (a :: x). split; [reflexivity|]. split; [constructor|]. intros b r Eb. now injection Eb as -> _. }
      destruct G as [vl [rest [E [H1 H2]]]]. exact (HV vl rest E H1 H2 done line vl eq_refl). }
    destruct (vertex_safe crs h done sv line Hh I Hf) as [N S1].
    destruct (contains l "VRTX") eqn:El.
    + assert (HV' : forall vl rest, ls = vl ++ rest -> Forall (fun x => contains x "VRTX" = true) vl ->
        (forall a r, rest = a :: r -> contains a "VRTX" = false) -> vertices_fit ((done ++ [line]) ++ l :: vl)).
      { intros vl rest E H1 H2. rewrite <- app_assoc. apply (HV (l :: vl) rest); [now rewrite E|now constructor|assumption]. }
      split.
      * apply bind_noub; [exact N|]. intros sv1 E1. now apply (IH (done ++ [line])); [apply S1|].
      * intros sv' l' s' E. apply bind_ok in E. destruct E as [sv1 [E1 E]]. destruct (IH (done ++ [line]) sv1 l (S1 _ E1) HV') as [_ G].
        destruct (G _ _ _ E) as [vl [rest [-> [H1 [H2 [H3 H4]]]]]]. exists (l :: vl), rest. split; [reflexivity|]. split; [now constructor|]. split; [assumption|].
        split; [|assumption]. rewrite <- app_assoc in H3. exact H3.
    + split; [apply bind_noub; [exact N|discriminate]|]. intros sv' l' s' E. apply bind_ok in E. destruct E as [sv1 [E1 E]].
      exists [], (l :: ls). split; [reflexivity|]. split; [constructor|]. split; [intros a r Ea; now injection Ea as -> _|].
      assert (sv' = sv1 /\ l' = l /\ s' = mkStream ls true) as [-> [-> ->]] by (repeat split; congruence). split; [now apply S1|auto].
Qed.

(** ** Cells *)
Definition tet_of (n : Z) (c : cell) (t : quad * bytes) : Prop :=
  Forall (fun v => 0 <= v < n /\ cell_corner c (v + 1)) (quad_list (fst t)) /\ cell_in (snd t) c.
Record tetras_ok (n : Z) (h : PropHeader (num F)) (done : list cell) (st : SolidT F) : Prop := {
  to_tets : Forall2 (tet_of n) done (st_tets st);
  to_vals : rows F h (List.length done) (st_vals st)
}.
Lemma tetra_safe n h done st c : head_ok F h -> tetras_ok n h done st -> cell_fits n c ->
  lso_tetra F h n st (fst c) (snd c) <> UB /\ forall st', lso_tetra F h n st (fst c) (snd c) = Ok st' -> tetras_ok n h (done ++ [c]) st'.
Proof.
  intros [K1 [K2 K3]] [T V] [H1 [H2 H3]]. unfold has_words in H1, H2. unfold lso_tetra.
  destruct (read_properties_noub F (List.length done) (string_split (fst c)) (p_names h) (p_esizes h) (st_vals st) 5 K1 K3 V) as [R1 R2].
  assert (TK : forall k v, (1 <= k <= 4)%nat -> tok_index 1 (string_split (fst c)) k = Ok v -> 0 <= v < n /\ cell_corner c (v + 1)).
  { intros k v Hk E. apply tok_word in E. destruct E as [m [W ->]]. destruct (word_index _ _ _ _ W (H3 k m Hk)) as [-> Hm]. split; [exact Hm|].
    exists k. split; [assumption|]. now replace (m - 1 + 1) with m by lia. }
  split.
  - apply bind_noub; [apply tok_index_noub; lia|]. intros a Ea. apply bind_noub; [apply tok_index_noub; lia|]. intros b Eb.
    apply bind_noub; [apply tok_index_noub; lia|]. intros x Ex. apply bind_noub; [apply tok_index_noub; lia|]. intros d Ed.
    apply TK in Ea; [|lia]. apply TK in Eb; [|lia]. apply TK in Ex; [|lia]. apply TK in Ed; [|lia].
    destruct (Z.ltb_spec a n), (Z.ltb_spec b n), (Z.ltb_spec x n), (Z.ltb_spec d n); try lia. cbn [andb].
    apply bind_noub; [exact R1|]. intros vals _. apply bind_noub; [apply idx_noub; lia|]. discriminate.
  - intros st' E. apply bind_ok in E. destruct E as [a [Ea E]]. apply bind_ok in E. destruct E as [b [Eb E]]. apply bind_ok in E. destruct E as [x [Ex E]].
    apply bind_ok in E. destruct E as [d [Ed E]]. destruct (_ && _); [|discriminate]. apply bind_ok in E. destruct E as [vals [Ev E]].
    apply bind_ok in E. destruct E as [name [En E]]. assert (st' = mkSolidT (st_tets st ++ [((a, b, x, d), name)]) vals) as -> by congruence.
    apply TK in Ea; [|lia]. apply TK in Eb; [|lia]. apply TK in Ex; [|lia]. apply TK in Ed; [|lia]. split; cbn [st_tets st_vals].
    + apply Forall2_app; [assumption|]. constructor; [|constructor]. split; cbn [fst snd quad_list].
      * constructor; [assumption|]. constructor; [assumption|]. constructor; [assumption|]. constructor; [assumption|constructor].
      * unfold cell_in. unfold idx in En. destruct (nth_error _ 2); congruence.
    + unfold rows. rewrite app_length. cbn [List.length]. rewrite Nat.add_1_r. now apply R2.
Qed.
Lemma tetras_safe n h : head_ok F h -> forall cells after c done st, tetras_ok n h done st -> Forall (cell_fits n) (c :: cells) ->
  Forall (fun c => starts_with (fst c) "TETRA" = true) cells -> (forall l r, after = l :: r -> starts_with l "TETRA" = false) ->
  lso_tetras F h n st (fst c) true (snd c :: flat_map (fun c => [fst c; snd c]) cells ++ after) <> UB /\
  forall st' l' s', lso_tetras F h n st (fst c) true (snd c :: flat_map (fun c => [fst c; snd c]) cells ++ after) = Ok (st', l', s') ->
    tetras_ok n h (done ++ c :: cells) st' /\ match after with [] => l' = [] /\ s' = mkStream [] false | l :: r => l' = l /\ s' = mkStream r true end.
Proof.
  intros Hh. induction cells as [|c2 cells IH]; intros after c done st I HF HT HA.
  - destruct (tetra_safe n h done st c Hh I (Forall_inv HF)) as [N S1]. cbn [flat_map app lso_tetras]. split.
    + apply bind_noub; [exact N|]. intros st1 _. destruct after as [|l r]; [discriminate|]. rewrite (HA l r eq_refl). discriminate.
    + intros st' l' s' E. apply bind_ok in E. destruct E as [st1 [E1 E]]. apply S1 in E1. destruct after as [|l r].
      * assert (st' = st1 /\ l' = [] /\ s' = mkStream [] false) as [-> [-> ->]] by (repeat split; congruence). auto.
      * rewrite (HA l r eq_refl) in E. assert (st' = st1 /\ l' = l /\ s' = mkStream r true) as [-> [-> ->]] by (repeat split; congruence). auto.
  - destruct (tetra_safe n h done st c Hh I (Forall_inv HF)) as [N S1]. cbn [flat_map app].
    assert (E0 : forall st0, lso_tetras F h n st0 (fst c) true (snd c :: fst c2 :: snd c2 :: flat_map (fun c => [fst c; snd c]) cells ++ after) =
      bind (lso_tetra F h n st0 (fst c) (snd c)) (fun st' => if starts_with (fst c2) "TETRA" then lso_tetras F h n st' (fst c2) true (snd c2 :: flat_map (fun c => [fst c; snd c]) cells ++ after)
        else Ok (st', fst c2, mkStream (snd c2 :: flat_map (fun c => [fst c; snd c]) cells ++ after) true))) by reflexivity.
    rewrite E0. rewrite (Forall_inv HT). split.
    + apply bind_noub; [exact N|]. intros st1 E1. apply (IH after c2 (done ++ [c]) st1); auto; [now apply (Forall_inv_tail HF)|now apply (Forall_inv_tail HT)].
    + intros st' l' s' E. apply bind_ok in E. destruct E as [st1 [E1 E]].
      destruct (IH after c2 (done ++ [c]) st1 (S1 _ E1) (Forall_inv_tail HF) (Forall_inv_tail HT) HA) as [_ G]. apply G in E.
      rewrite <- app_assoc in E. exact E.
Qed.

(** ** Surfaces *)
Lemma use_vertex_safe sv (us : Used F) v : 0 <= v < lenz (sv_points sv) -> 0 <= v < lenz (sv_uid sv) -> use_vertex F sv us v <> UB.
Proof.
  intros H1 H2. unfold use_vertex. destruct (find_pos _ _ _); [discriminate|]. apply bind_noub; [now apply idxz_in|]. intros p _.
  apply bind_noub; [now apply idxz_in|]. discriminate.
Qed.
Section Surfaces.
Variables (sv : SolidV F) (m : Z) (tets : list (quad * bytes)).
Hypothesis (H1 : m <= lenz (sv_points sv)) (H2 : m <= lenz (sv_uid sv)) (H3 : m <= lenz (sv_map sv)).
Lemma trgl_safe s st l : triangle_fits m l -> lso_trgl F sv tets s st l <> UB.
Proof.
  intros [W H]. unfold has_words in W. unfold lso_trgl.
  assert (TK : forall k v, (1 <= k <= 3)%nat -> tok_index 1 (string_split l) k = Ok v -> 0 <= v < m).
  { intros k v Hk E. apply tok_word in E. destruct E as [n [Wn ->]]. destruct (word_index _ _ _ _ Wn (H k n Hk)) as [-> Hm]. exact Hm. }
  apply bind_noub; [apply tok_index_noub; lia|]. intros a Ea. apply TK in Ea; [|lia]. apply bind_noub; [apply use_vertex_safe; lia|]. intros [us1 ia] _.
  apply bind_noub; [apply tok_index_noub; lia|]. intros b Eb. apply TK in Eb; [|lia]. apply bind_noub; [apply use_vertex_safe; lia|]. intros [us2 ib] _.
  apply bind_noub; [apply tok_index_noub; lia|]. intros c Ec. apply TK in Ec; [|lia]. apply bind_noub; [apply use_vertex_safe; lia|]. intros [us3 ic] _.
  apply bind_noub; [|discriminate]. unfold facets_from_vertices.
  apply bind_noub; [apply idxz_in; lia|]. intros la _. apply bind_noub; [apply idxz_in; lia|]. intros lb _. apply bind_noub; [apply idxz_in; lia|]. discriminate.
Qed.
(** The lines still to come are among those of [after]. *)
Definition among (after : list bytes) (line : bytes) (s : istream) : Prop :=
  live line s /\ suffix (pending s) after /\ (In line after \/ line = []).
Lemma suffix_in (a b : list bytes) x : suffix a b -> In x a -> In x b.
Proof. intros [p ->] H. apply in_or_app. now right. Qed.
Lemma getline_among after line s g line' s' : among after line s -> line <> [] -> getline line s = (g, line', s') -> among after line' s'.
Proof.
  intros [L [P _]] NE E. destruct (getline_live _ _ _ _ _ L NE E) as [L' _]. split; [assumption|]. unfold getline in E. destruct (pending s) as [|l r].
  - assert (s' = mkStream [] false) as -> by congruence. cbn [pending]. destruct L as [N|[H _]]; [|congruence]. rewrite N in E. assert (line' = []) as -> by congruence.
    split; [|now right]. exists after. now rewrite app_nil_r.
  - assert (line' = l /\ s' = mkStream r (nl s)) as [-> ->] by (split; congruence). cbn [pending]. split; [eapply suffix_tl; exact P|].
    left. eapply suffix_in; [exact P|now left].
Qed.
Variable after : list bytes.
Hypothesis HA : after_fits m after.
Lemma triangles_safe s ls : forall st line b, suffix ls after -> (b = true \/ (line = [] /\ ls = [])) -> (In line after \/ line = []) ->
  lso_triangles F sv tets s st line b ls <> UB /\
  forall st' l' s', lso_triangles F sv tets s st line b ls = Ok (st', l', s') -> among after l' s'.
Proof.
  induction ls as [|l ls IH]; intros st line b P HB HL; cbn [lso_triangles].
  - split; [discriminate|]. intros st' l' s' E. assert (s' = mkStream [] false) as -> by congruence.
    assert (l' = []) as -> by (destruct HB as [->|[-> _]]; [|destruct b]; congruence). split; [right; auto|]. cbn [pending]. auto.
  - destruct HB as [->|[_ HB]]; [|discriminate]. assert (P' : suffix ls after) by (eapply suffix_tl; exact P).
    assert (HI : In l after) by (eapply suffix_in; [exact P|now left]).
    destruct (starts_with l "TRGL") eqn:EL.
    + unfold after_fits in HA. rewrite Forall_forall in HA. destruct (HA _ HI) as [HT _]. specialize (HT EL). split.
      * apply bind_noub; [now apply trgl_safe|]. intros st1 _. apply IH; auto.
      * intros st' l' s' E. apply bind_ok in E. destruct E as [st1 [_ E]]. eapply IH; [exact P'| | |exact E]; auto.
    + split; [discriminate|]. intros st' l' s' E. assert (l' = l /\ s' = mkStream ls true) as [-> ->] by (split; congruence). split; [now left|]. cbn [pending]. auto.
Qed.
Lemma tfaces_safe name fuel : forall st line s, among after line s ->
  lso_tfaces F fuel sv tets name st line s <> UB /\
  forall st' l' s', lso_tfaces F fuel sv tets name st line s = Ok (st', l', s') -> among after l' s'.
Proof.
  induction fuel as [|fuel IH]; intros st line s A; [split; discriminate|]. cbn [lso_tfaces]. destruct (starts_with line "TFACE") eqn:ES.
  - destruct (getline line s) as [[g line1] s1] eqn:EG. pose proof (getline_among _ _ _ _ _ _ A ltac:(intros ->; discriminate ES) EG) as [L1 [P1 I1]].
    assert (B1 : nl s1 = true \/ (line1 = [] /\ pending s1 = [])) by exact L1.
    set (st0 := mkTriSt no_vertex [] (ss_facets st) (ss_inspect st)).
    destruct (triangles_safe (lenz (ss_surfs st)) (pending s1) st0 line1 (nl s1) P1 B1 I1) as [N G]. split.
    + apply bind_noub; [exact N|]. intros [[ts line2] s2] E2. apply IH. eapply G. exact E2.
    + intros st' l' s' E. apply bind_ok in E. destruct E as [[[ts line2] s2] [E2 E]]. eapply IH; [eapply G; exact E2|exact E].
  - split; [discriminate|]. intros st' l' s' E. assert (l' = line /\ s' = s) as [-> ->] by (split; congruence). assumption.
Qed.
Lemma surfaces_safe fuel : forall st hs line s, among after line s ->
  lso_surfaces F fuel sv tets st hs line s <> UB /\
  forall st' hs' l' s', lso_surfaces F fuel sv tets st hs line s = Ok (st', hs', l', s') -> among after l' s'.
Proof.
  induction fuel as [|fuel IH]; intros st hs line s A; [split; discriminate|]. cbn [lso_surfaces]. destruct (starts_with line "SURFACE") eqn:ES.
  - destruct (getline line s) as [[g line1] s1] eqn:EG. pose proof (getline_among _ _ _ _ _ _ A ltac:(intros ->; discriminate ES) EG) as A1.
    set (name := read_name (tl (string_split line))).
    destruct (tfaces_safe name (S (S (List.length (pending s1)))) st line1 s1 A1) as [N G]. split.
    + apply bind_noub; [exact N|]. intros [[st2 line2] s2] E2. apply IH. eapply G. exact E2.
    + intros st' hs' l' s' E. apply bind_ok in E. destruct E as [[[st2 line2] s2] [E2 E]]. eapply IH; [eapply G; exact E2|exact E].
  - split; [discriminate|]. intros st' hs' l' s' E. assert (l' = line /\ s' = s) as [-> ->] by (split; congruence). assumption.
Qed.
End Surfaces.

(** ** Blocks *)
Lemma fill_safe (vals : list (num F)) e d N mapping : 0 <= e < 256 -> List.length vals = (N * Z.to_nat e)%nat ->
  Forall (fun k => (k < N)%nat) mapping ->
  forall n pt a, (pt + n <= List.length mapping)%nat -> (pt + n <= List.length a)%nat -> fill_attr vals e d mapping pt n a <> UB.
Proof.
  intros He Hl HM. induction n as [|n IH]; intros pt a L1 L2; [discriminate|]. cbn [fill_attr].
  apply bind_noub; [apply idx_noub; lia|]. intros k Ek.
  assert (k < N)%nat as Hk.
  { unfold idx in Ek. destruct (nth_error mapping pt) as [q|] eqn:Q; [|discriminate]. assert (q = k) as -> by congruence.
    apply nth_error_In in Q. rewrite Forall_forall in HM. now apply HM. }
  apply bind_noub; [now apply (attr_row_noub F _ _ _ N)|]. intros row _. rewrite setz_len by lia. cbn [bind]. apply IH; [lia|]. rewrite upd_length. lia.
Qed.
Lemma make_attributes_safe vt count N nb mapping : (nb <= List.length mapping)%nat -> (nb <= count)%nat -> Forall (fun k => (k < N)%nat) mapping ->
  forall names es ds vals (l : list (bytes * attr (num F))), List.length es = List.length names -> List.length ds = List.length names ->
  Forall (fun e => 0 <= e < 256) es -> Forall2 (fun e v => List.length v = (N * Z.to_nat e)%nat) es vals ->
  (forall n a, find_attr n l = Some a -> List.length (a_vals a) = count) ->
  make_attributes vt count names es ds vals nb mapping l <> UB.
Proof.
  intros L1 L2 HM. induction names as [|nm names IH]; intros es ds vals l Hl Hd Hs H Hw; [discriminate|].
  destruct ds as [|d ds]; [discriminate|]. inversion H as [|e v es' vals' H1 H2]; subst; [discriminate|].
  cbn [make_attributes]. cbv zeta. pose proof (Forall_inv Hs) as S1. pose proof (Forall_inv_tail Hs) as S2.
  assert (FA : forall a, find_or_create_in vt count l nm e (repeat d (Z.to_nat e)) = Ok a -> List.length (a_vals a) = count).
  { unfold find_or_create_in. intros a. destruct (vt && _); [discriminate|]. cbv zeta. destruct (find_attr nm l) as [b|] eqn:Eb.
    - destruct (_ =? _); [|discriminate]. intros E. assert (b = a) as -> by congruence. eapply Hw; exact Eb.
    - intros E. assert (a = mkAttr (attr_type e) (repeat d (Z.to_nat e)) (repeat (repeat d (Z.to_nat e)) count)) as -> by congruence. cbn [a_vals]. apply repeat_length. }
  apply bind_noub.
  { unfold find_or_create_in. destruct (vt && _); [discriminate|]. cbv zeta. destruct (find_attr nm l); [destruct (_ =? _)|]; discriminate. }
  intros a Ea. apply FA in Ea. apply bind_noub; [apply (fill_safe _ _ _ N); auto; lia|]. intros vs Ev. apply (fill_attr_length) in Ev.
  apply IH; auto; try (cbn in *; lia). intros x b Eb. destruct (beq nm x) eqn:Ex.
  - apply beq_eq in Ex. subst x. rewrite find_replace_same in Eb. assert (b = mkAttr (a_type a) (a_def a) vs) as -> by congruence. cbn [a_vals]. lia.
  - rewrite find_replace_other in Eb; [eapply Hw; exact Eb|]. intros ->. rewrite beq_refl in Ex. discriminate.
Qed.

Lemma block_size n cells tets name : Forall2 (tet_of n) cells tets ->
  List.length (block_tets tets name) = List.length (filter (cell_inb name) cells).
Proof.
  unfold block_tets. rewrite map_length. induction 1 as [|c t cells tets [_ H] _ IH]; [reflexivity|]. cbn [filter]. unfold cell_inb at 1. unfold cell_in in H. rewrite H.
  destruct (beq (snd t) name); cbn [List.length]; now rewrite IH.
Qed.
Lemma block_corner n cells tets name v : Forall2 (tet_of n) cells tets -> In v (flat_map quad_list (block_tets tets name)) ->
  0 <= v < n /\ exists c, In c cells /\ cell_in name c /\ cell_corner c (v + 1).
Proof.
  unfold block_tets. induction 1 as [|c t cells tets [H1 H2] _ IH]; [contradiction|]. cbn [filter]. destruct (beq (snd t) name) eqn:E.
  - cbn [map flat_map]. intros H. apply in_app_or in H. destruct H as [H|H].
    + rewrite Forall_forall in H1. destruct (H1 _ H) as [R C]. split; [assumption|]. exists c. split; [now left|]. apply beq_eq in E. subst name. auto.
    + destruct (IH H) as [R [x [I C]]]. split; [assumption|]. exists x. split; [now right|assumption].
  - intros H. destruct (IH H) as [R [x [I C]]]. split; [assumption|]. exists x. split; [now right|assumption].
Qed.
Lemma build_block_safe vp tp sv st ss vl cells name : head_ok F vp -> head_ok F tp -> state_ok vp vl sv -> tetras_ok (lenz vl) tp cells st ->
  (p_names tp = [] \/
   ((forall c n, In c cells -> cell_corner c n -> n <= lenz cells) /\
    forall ns, NoDup ns -> (forall n, In n ns -> exists c, In c cells /\ cell_in name c /\ cell_corner c n) -> lenz ns <= lenz (filter (cell_inb name) cells))) ->
  build_block F vp tp sv st ss name <> UB.
Proof.
  intros [V1 [V2 V3]] [T1 [T2 T3]] [I P M V] [T W] HC. unfold build_block.
  set (ts := block_tets (st_tets st) name).
  assert (C : forall v, In v (flat_map quad_list ts) -> 0 <= v < lenz vl /\ exists c, In c cells /\ cell_in name c /\ cell_corner c (v + 1))
    by (intros v Hv; eapply block_corner; eassumption).
  assert (K : Forall (fun t => Forall (known sv) (quad_list t)) ts).
  { apply Forall_forall. intros t Ht. apply Forall_forall. intros v Hv. destruct (C v) as [R _]; [apply in_flat_map; eauto|].
    destruct (nthz_in_range (sv_points sv) v ltac:(unfold lenz in *; lia)) as [p Hp].
    destruct (nthz_in_range (sv_uid sv) v ltac:(pose proof (si_len _ I); unfold lenz in *; lia)) as [u Hu]. exists p, u. auto. }
  destruct (use_tets_spec sv ts no_vertex (no_vertex_ok sv) K) as [us [tets [E [[U1 U2 U3] [_ [U4 U5]]]]]]. rewrite E. cbn [bind].
  assert (L1 : List.length (us_points us) = List.length (us_seen us)) by (eapply mapM_length; exact U2).
  assert (L2 : List.length tets = List.length ts) by (clear -U4; induction U4; cbn; auto).
  assert (SE : forall v, In v (us_seen us) -> 0 <= v < lenz vl /\ exists c, In c cells /\ cell_in name c /\ cell_corner c (v + 1)).
  { intros v Hv. apply U5 in Hv. destruct Hv as [Hv|Hv]; [contradiction|now apply C]. }
  apply bind_noub.
  - apply (make_attributes_safe true (List.length (us_points us)) (List.length vl)); auto.
    + rewrite map_length. lia.
    + apply Forall_forall. intros k Hk. apply in_map_iff in Hk. destruct Hk as [v [<- Hv]]. apply SE in Hv. unfold lenz in Hv. lia.
    + discriminate.
  - intros va _. apply bind_noub; [|discriminate]. destruct HC as [HC|[HC1 HC2]].
    + rewrite HC. discriminate.
    + apply (make_attributes_safe false (List.length tets) (List.length cells)); auto.
      * rewrite map_length. lia.
      * rewrite L2, L1. unfold ts. rewrite (block_size _ _ _ _ T).
        assert (H : lenz (map (fun v => v + 1) (us_seen us)) <= lenz (filter (cell_inb name) cells)).
        { apply HC2.
          - clear -U1. induction U1 as [|x l H1 H2 IH]; cbn [map]; constructor; [|assumption]. intros H. apply in_map_iff in H. destruct H as [y [E H]]. assert (y = x) as -> by lia. contradiction.
          - intros n Hn. apply in_map_iff in Hn. destruct Hn as [v [<- Hv]]. now apply SE in Hv. }
        rewrite lenz_map in H. unfold lenz in H. lia.
      * apply Forall_forall. intros k Hk. apply in_map_iff in Hk. destruct Hk as [v [<- Hv]]. apply SE in Hv. destruct Hv as [R [c [Hc [_ Hcc]]]].
        apply (HC1 c) in Hcc; [|assumption]. unfold lenz in Hcc. lia.
      * discriminate.
Qed.
Lemma blocks_safe vp tp sv st ss vl cells after m : head_ok F vp -> head_ok F tp -> state_ok vp vl sv -> tetras_ok (lenz vl) tp cells st ->
  (p_names tp = [] \/ cells_enough cells after) -> after_fits m after ->
  forall fuel line s, among after line s -> lso_blocks F vp tp fuel sv st ss line s <> UB.
Proof.
  intros HV HT I T HC HA. induction fuel as [|fuel IH]; intros line s A; [discriminate|]. cbn [lso_blocks].
  destruct (starts_with line "MODEL_REGION") eqn:ES; [|discriminate].
  assert (NE : line <> []) by (intros ->; discriminate ES).
  assert (HI : In line after) by (destruct A as [_ [_ [A|A]]]; [assumption|congruence]).
  unfold after_fits in HA. rewrite Forall_forall in HA. destruct (HA _ HI) as [_ HW]. specialize (HW ES). unfold has_words in HW.
  apply bind_noub; [apply idx_noub; lia|]. intros name En. apply bind_noub.
  - eapply build_block_safe; try eassumption. destruct HC as [HC|[HC1 HC2]]; [now left|right]. split; [assumption|]. intros ns. apply HC2 with line; auto.
    unfold idx in En. destruct (nth_error _ 1); congruence.
  - intros [b bad] _. destruct (getline line s) as [[g line1] s1] eqn:EG. apply bind_noub; [|intros [bs bad'] _; discriminate].
    apply IH. eapply getline_among; eassumption.
Qed.

(** ** The file *)
Lemma skip_safe kind line s : skip_indicators kind line s <> UB.
Proof.
  unfold skip_indicators. destruct (starts_with line _); [|discriminate]. apply bind_noub; [apply goto_keyword_noub|]. intros [l s1] _.
  destruct (getline line s1) as [[g l'] s2]. discriminate.
Qed.
(** The reader holds the first line of [ls], or [ls] is empty. *)
Definition at_line (ls : list bytes) (line : bytes) (s : istream) : Prop :=
  match ls with [] => line = [] /\ s = mkStream [] false | l :: r => line = l /\ s = mkStream r true end.
Lemma skip_at kind ls line s line' s' : at_line ls line s -> skip_indicators kind line s = Ok (line', s') ->
  exists ls', after_indicators kind ls ls' /\ at_line ls' line' s'.
Proof.
  unfold skip_indicators. intros A E. destruct ls as [|l r]; destruct A as [-> ->].
  - change (starts_with [] (lit "BEGIN_" ++ kind ++ lit "_REGION_INDICATORS")) with false in E. exists []. split; [reflexivity|]. split; congruence.
  - unfold after_indicators. destruct (starts_with l _).
    + apply bind_ok in E. destruct E as [[e s1] [E1 E]]. destruct (goto_keyword_keeps _ _ _ _ E1) as [_ N1]. cbn [nl] in N1. apply scan_first in E1. cbn [pending] in E1.
      exists (pending s1). split; [exists e; exact E1|]. unfold getline in E. destruct (pending s1) as [|x y].
      * rewrite N1 in E. split; congruence.
      * rewrite N1 in E. split; congruence.
    + exists (l :: r). split; [reflexivity|]. split; congruence.
Qed.
Lemma goto_run s line s1 : goto_keywords (map lit ["VRTX"; "PVRTX"]) s = Ok (line, s1) ->
  vertex_start line /\ nl s1 = nl s /\ exists pre, pending s = pre ++ line :: pending s1 /\ Forall (fun l => ~ vertex_start l) pre.
Proof.
  unfold goto_keywords. destruct (scan _ (pending s)) as [[x r]|] eqn:E; [|discriminate]. intros H.
  assert (x = line /\ s1 = mkStream r (nl s)) as [-> ->] by (split; congruence). cbn [nl pending]. clear H. revert line r E.
  induction (pending s) as [|y t IH]; intros x r E; [discriminate|]. cbn [scan] in E.
  destruct (existsb (starts_with y) (map lit ["VRTX"; "PVRTX"])) eqn:Ey.
  - assert (y = x /\ t = r) as [-> ->] by (split; congruence). cbn [map existsb] in Ey. rewrite orb_false_r in Ey. apply orb_true_iff in Ey. split; [exact Ey|]. split; [reflexivity|].
    exists []. split; [reflexivity|constructor].
  - destruct (IH x r E) as [H1 [H2 [pre [H3 H4]]]]. split; [assumption|]. split; [reflexivity|]. exists (y :: pre). split; [now rewrite H3|]. constructor; [|assumption].
    cbn [map existsb] in Ey. rewrite orb_false_r in Ey. apply orb_false_iff in Ey. destruct Ey as [Y1 Y2]. intros [H|H]; congruence.
Qed.
Lemma body_safe crs vp tp title s : head_ok F vp -> head_ok F tp -> (nl s = true \/ pending s = []) -> solid_fits (p_names tp = []) (pending s) ->
  lso_body F crs vp tp title s <> UB.
Proof.
  intros HV HT N [SV SC]. unfold lso_body. apply bind_noub.
  { unfold goto_keywords. destruct (scan _ (pending s)) as [[x r]|]; discriminate. }
  intros [line s1] E1. apply goto_run in E1. destruct E1 as [VS [N1 [pre [EP HP]]]].
  assert (nl s1 = true) as N1' by (destruct N as [N|N]; [congruence|rewrite N in EP; symmetry in EP; apply app_eq_nil in EP; destruct EP; discriminate]).
  rewrite N1'. clear N N1.
  assert (RUN : forall vl rest, pending s1 = vl ++ rest -> Forall (fun x => contains x "VRTX" = true) vl -> (forall l r, rest = l :: r -> contains l "VRTX" = false) ->
    vertex_run (pending s) (line :: vl) rest).
  { intros vl rest E H1 H2. split; [exists pre; rewrite EP, E; auto|exists line, vl; auto|assumption]. }
  set (sv0 := mkSolidV [] [] [] (map (fun _ => []) (p_names vp))).
  assert (I0 : state_ok vp [] sv0).
  { split; cbn [sv_points sv_map sv_vals]; [apply empty_inv|reflexivity|reflexivity|]. now apply empty_rows. }
  destruct (vertices_safe crs vp HV (pending s1) [] sv0 line I0) as [N2 G2].
  { intros vl rest E H1 H2. cbn [app]. eapply SV. eapply RUN; eassumption. }
  apply bind_noub; [exact N2|]. intros [[sv line2] s2] E2. destruct (G2 _ _ _ E2) as [vl [rest [EV [H1 [H2 [I A2]]]]]]. cbn [app] in I.
  pose proof (RUN vl rest EV H1 H2) as R. clear E2 G2 N2 RUN.
  apply bind_noub; [apply skip_safe|]. intros [line3 s3] E3. destruct (skip_at _ rest _ _ _ _ A2 E3) as [ls' [AI A3]]. clear E3.
  destruct (SC _ _ _ R AI) as [cells [after [[CL [c [cs [-> CT]]] CN] [CF [AF HC]]]]].
  cbn [flat_map app] in CL. subst ls'. cbn [at_line] in A3. destruct A3 as [-> ->]. cbn [nl pending].
  assert (IP : lenz (sv_points sv) = lenz (line :: vl)) by (apply (so_points _ _ _ I)). rewrite IP.
  set (st0 := mkSolidT [] (map (fun _ => []) (p_names tp))).
  assert (T0 : tetras_ok (lenz (line :: vl)) tp [] st0) by (split; cbn [st_tets st_vals]; [constructor|now apply empty_rows]).
  destruct (tetras_safe (lenz (line :: vl)) tp HT cs after c [] st0 T0 CF CT CN) as [N4 G4].
  apply bind_noub; [exact N4|]. intros [[st line4] s4] E4. destruct (G4 _ _ _ E4) as [T A4]. cbn [app] in T. clear E4 G4 N4.
  apply bind_noub; [apply skip_safe|]. intros [line5 s5] E5.
  assert (R4 : reached after line4 s4).
  { destruct after as [|l r]; destruct A4 as [-> ->]; [right; auto|left]. split; [reflexivity|apply suffix_refl]. }
  pose proof (skip_reached _ _ _ _ _ _ R4 E5) as R5.
  apply bind_noub; [destruct (starts_with line5 "MODEL"); [discriminate|]; apply bind_noub; [apply goto_keyword_noub|intros [x y] _; discriminate]|].
  intros [line6 s6] E6.
  assert (L6 : nl s6 = true /\ suffix (pending s6) after).
  { destruct (starts_with line5 "MODEL") eqn:ES.
    - assert (s6 = s5) as -> by congruence. destruct R5 as [[H S5]|[-> _]]; [split; [assumption|eapply suffix_tl; exact S5]|discriminate ES].
    - apply bind_ok in E6. destruct E6 as [[l s'] [EG E6]]. assert (s6 = s') as -> by congruence. destruct (goto_keyword_keeps _ _ _ _ EG) as [[K _] K']. rewrite K'.
      destruct R5 as [[H S5]|[_ H]]; [split; [assumption|]; eapply suffix_trans; [exact K|eapply suffix_tl; exact S5]|].
      apply goto_keyword_suffix in EG. rewrite H in EG. apply suffix_nil in EG. discriminate. }
  destruct L6 as [L6 P6]. destruct (getline line6 s6) as [[g line7] s7] eqn:EG.
  assert (A7 : among after line7 s7).
  { unfold getline in EG. destruct (pending s6) as [|l r] eqn:E7.
    - rewrite L6 in EG. assert (line7 = [] /\ s7 = mkStream [] false) as [-> ->] by (split; congruence). split; [right; auto|]. cbn [pending]. auto.
    - assert (line7 = l /\ s7 = mkStream r (nl s6)) as [-> ->] by (split; congruence). split; [left; assumption|]. cbn [pending].
      split; [eapply suffix_tl; exact P6|]. left. eapply suffix_in; [exact P6|now left]. }
  pose proof (so_map _ _ _ I) as IM. pose proof (si_len _ (so_inv _ _ _ I)) as IU. pose proof (plain_le (line :: vl)) as PL.
  destruct (surfaces_safe sv (lenz (plain_lines (line :: vl))) (st_tets st) ltac:(lia) ltac:(lia) ltac:(lia) after AF (S (S (List.length (pending s7)))) (mkSurfSt [] [] false) [] line7 s7 A7) as [N8 G8].
  apply bind_noub; [exact N8|]. intros [[[ss hs] line8] s8] E8. apply G8 in E8.
  apply bind_noub; [|intros [bs bad] _; discriminate]. eapply blocks_safe; eassumption.
Qed.
Lemma read_lso_safe text : nl (open_text text) = true -> header_lines_ok (pending (open_text text)) ->
  (forall tp ls, lso_head F text = Ok (tp, ls) -> solid_fits (p_names tp = []) ls) -> read_lso F text <> UB.
Proof.
  intros N H HF. unfold read_lso. unfold lso_head in HF. destruct (goto_if _ (open_text text)) as [[l0|] s0] eqn:E0; [|discriminate].
  destruct (goto_if_keeps _ _ _ _ E0) as [K0 _].
  apply bind_noub; [apply read_header_noub|]. intros [t s1] E1. rewrite E1 in HF. cbn [bind] in HF. apply read_header_keeps in E1.
  pose proof (keeps_trans _ _ _ K0 E1) as K1. pose proof (header_lines_suffix _ _ (proj1 K1) H) as H1.
  apply bind_noub; [apply read_CRS_safe; apply H1|]. intros [crs s2] E2. rewrite E2 in HF. cbn [bind] in HF. apply read_CRS_keeps in E2.
  pose proof (keeps_trans _ _ _ K1 E2) as K2. destruct (header_lines_suffix _ _ (proj1 K2) H) as [H2 [[H3 H4] _]].
  destruct (prop_header_noub [] s2 H2 H3 H4) as [NV GV]. apply bind_noub; [exact NV|]. intros [vp s3] E3. pose proof (GV _ E3) as HV. cbn [fst] in HV.
  rewrite E3 in HF. cbn [bind] in HF. apply read_prop_header_keeps in E3.
  pose proof (keeps_trans _ _ _ K2 E3) as K3. destruct (header_lines_suffix _ _ (proj1 K3) H) as [H5 [_ [H6 H7]]].
  destruct (prop_header_noub "TETRA_" s3 H5 H6 H7) as [NT GT]. apply bind_noub; [exact NT|]. intros [tp s4] E4. pose proof (GT _ E4) as HT. cbn [fst] in HT.
  rewrite E4 in HF. cbn [bind] in HF. apply read_prop_header_keeps in E4. pose proof (keeps_trans _ _ _ K3 E4) as [_ K4].
  apply body_safe; auto. destruct K4 as [K4|K4]; [left; congruence|now right].
Qed.
End Safe.
