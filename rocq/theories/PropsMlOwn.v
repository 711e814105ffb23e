(** * Property C147: what an exported .ml file needs to be loaded again. *)
From Coq Require Import ZArith List Lia Bool Ascii String Permutation.
From Verif Require Import Base Text TextFacts GocadModel MeshModel TsModel Spec GocadFacts TsFacts SignsModel MlModel MlFacts MlFile MlRound PropsMl.
From Verif Require Import LsoRead PropsObjects PropsLsoAgain PropsMlSound PropsMlBrep PropsMlAgain PropsMlAccept ExNum ExCheck.
Import ListNotations.
Local Open Scope string_scope.
Local Open Scope list_scope.
Local Open Scope Z_scope.

(** ** Specification *)
Section Spec.
Context {F : Num} (uuid_text : Z -> bytes).
(** Is the surface in no collection of any kind? *)
Definition alone (m : SModel F) (i : Z) : bool :=
  negb (existsb (Z.eqb i) (flat_map c_items (m_bounds m) ++ flat_map c_items (m_faults m)
     ++ flat_map c_items (m_horizons m) ++ m_others m)).
(** What becomes a surface object of the file, in order: the model boundaries, the faults, the horizons, the surfaces of no
    collection. Each with its name in the file and its surfaces. *)
Definition objects (m : SModel F) : list (bytes * list Z) :=
  map (fun c => (underscored (label uuid_text (c_name c) (c_id c)), c_items c)) (m_bounds m) ++
  map (fun c => (label uuid_text (c_name c) (c_id c), c_items c)) (m_faults m) ++
  map (fun c => (label uuid_text (c_name c) (c_id c), c_items c)) (m_horizons m) ++
  map (fun s => (underscored (label uuid_text (s_name s) (s_id s)), [s_id s])) (filter (fun s => alone m (s_id s)) (m_surfaces m)).
(** No name (or identifier, for what has no name) has a line feed or another blank character than spaces and tabulations. *)
Record plain_names (m : SModel F) : Prop := {
  pn_title : forall n, m_title m = Some n -> is_line n;
  pn_surfaces : forall s, In s (m_surfaces m) -> alone m (s_id s) = true -> plain (label uuid_text (s_name s) (s_id s));
  pn_bounds : forall c, In c (m_bounds m) -> plain (label uuid_text (c_name c) (c_id c));
  pn_faults : forall c, In c (m_faults m) -> plain (label uuid_text (c_name c) (c_id c));
  pn_horizons : forall c, In c (m_horizons m) -> plain (label uuid_text (c_name c) (c_id c));
  pn_blocks : forall b, In b (m_blocks m) -> plain (label uuid_text (b_name b) (b_id b));
  pn_units : forall c n, In c (m_units m ++ m_fblocks m) -> c_name c = Some n -> plain n
}.
(** Vertex numbers are unsigned. *)
Definition unsigned_vertices (m : SModel F) : Prop := forall s, In s (m_surfaces m) ->
  Forall (fun t => let '(a, b, c) := t in 0 <= a /\ 0 <= b /\ 0 <= c) (s_tris s) /\
  Forall (Forall (fun e => 0 <= fst e /\ 0 <= snd e)) (s_loops s).
End Spec.

(** ** Lines *)
Lemma drop_app x y : y <> [] -> Forall (fun c => isspace c = false) y -> drop_while isspace (x ++ y) = drop_while isspace x ++ y.
Proof.
  intros N H. induction x as [|c x IH].
  - cbn [app drop_while]. destruct y as [|c y]; [congruence|]. inversion_clear H as [|? ? H0 H1]. cbn [drop_while]. now rewrite H0.
  - cbn [app drop_while]. destruct (isspace c); [exact IH|reflexivity].
Qed.
Lemma split_run_first l : forall cur, cur <> [] -> exists w r, split_run cur l = (cur ++ w) :: r.
Proof.
  induction l as [|c l IH]; intros cur N; cbn [split_run].
  - exists [], []. unfold flush. rewrite app_nil_r. destruct cur; [congruence|reflexivity].
  - destruct (is_sep c).
    + exists [], (split_run [] l). rewrite app_nil_r. unfold flush. destruct cur; [congruence|reflexivity].
    + destruct (IH (cur ++ [c])) as (w & r & E); [destruct cur; discriminate|]. exists (c :: w), r. rewrite E, <- app_assoc. reflexivity.
Qed.
Lemma split_run_prefix p : forall cur l, Forall (fun c => isspace c = false) p -> split_run cur (p ++ l) = split_run (cur ++ p) l.
Proof.
  induction p as [|c p IH]; intros cur l H; [now rewrite app_nil_r|]. inversion_clear H as [|? ? H0 H1]. cbn [app split_run].
  assert (is_sep c = false) as ->.
  { unfold is_sep. destruct (Ascii.eqb_spec c SP) as [->|_]; [discriminate|]. destruct (Ascii.eqb_spec c TAB) as [->|_]; [discriminate|reflexivity]. }
  rewrite IH by assumption. now rewrite <- app_assoc.
Qed.
Lemma split_prefix p l : p <> [] -> Forall (fun c => isspace c = false) p -> exists w r, string_split (p ++ l) = (p ++ w) :: r.
Proof.
  intros N H. unfold string_split, strip. rewrite rev_app_distr.
  rewrite drop_app; [| |now apply Forall_rev].
  2:{ intros E. apply N. rewrite <- (rev_involutive p), E. reflexivity. }
  rewrite rev_app_distr, rev_involutive. generalize (rev (drop_while isspace (rev l))). intros l'.
  assert (drop_while isspace (p ++ l') = p ++ l') as ->.
  { destruct p as [|c p]; [congruence|]. inversion_clear H as [|? ? H0 H1]. cbn [app drop_while]. now rewrite H0. }
  unfold words. rewrite split_run_prefix by assumption. apply split_run_first. exact N.
Qed.

(** The collection a TFACE line of the components is about. *)
Definition face_of (l : bytes) : option bytes :=
  match string_split l with
  | kw :: rest => if beq kw "TFACE" then match rest with _ :: _ :: ws => Some (read_name ws) | _ => None end else None
  | [] => None
  end.
Lemma quiet2 l c d r : l = c :: d :: r -> isspace c = false -> isspace d = false ->
  Ascii.eqb c "T" && Ascii.eqb d "F" = false -> face_of l = None.
Proof.
  intros -> Hc Hd H. unfold face_of. destruct (split_prefix [c; d] r) as (w & q & E); [discriminate|repeat constructor; assumption|].
  cbn [app] in E. rewrite E. destruct (beq (c :: d :: w) "TFACE") eqn:B; [|reflexivity]. exfalso.
  apply beq_eq in B. injection B as -> -> _. discriminate.
Qed.
Lemma quiet_T l : ~ In "T"%char l -> face_of l = None.
Proof.
  intros H. unfold face_of. destruct (string_split l) as [|kw rest] eqn:E; [reflexivity|].
  destruct (beq kw "TFACE") eqn:B; [|reflexivity]. exfalso. apply beq_eq in B. apply H, strip_in.
  destruct (split_run_in (strip l) [] kw "T"%char) as [[]|X]; [|subst; now left|exact X].
  unfold string_split, words in E. rewrite E. now left.
Qed.
Definition fit (T : list bytes) (l : bytes) : Prop := is_line l /\ forall n, face_of l = Some n -> In n T.
Lemma fit_quiet T l : is_line l -> face_of l = None -> fit T l.
Proof. intros H E. split; [exact H|]. intros n. rewrite E. discriminate. Qed.

Ltac quiet := eapply quiet2; [reflexivity|reflexivity|reflexivity|reflexivity].
Lemma plain_line n : plain n -> is_line n.
Proof. intros H X. unfold plain in H. rewrite Forall_forall in H. specialize (H _ X eq_refl). discriminate. Qed.
Lemma underscored_plain n : plain n -> plain (underscored n).
Proof.
  unfold plain, underscored. rewrite Forall_map. apply Forall_impl. intros c H. destruct (Ascii.eqb c " "); [discriminate|exact H].
Qed.
Definition usual (c : ascii) : Prop := c <> LF /\ c <> "T"%char.
Lemma show_usual z : 0 <= z -> Forall usual (show z).
Proof.
  intros H. eapply Forall_impl; [|apply show_digits; exact H]. intros c Hc. split; intros ->; discriminate.
Qed.
Lemma usual_fit T l : Forall usual l -> fit T l.
Proof.
  intros H. rewrite Forall_forall in H. apply fit_quiet; [intros X; now destruct (H _ X)|apply quiet_T; intros X; now destruct (H _ X)].
Qed.
Lemma wrap_usual es : forall cur k, Forall usual cur -> Forall (Forall usual) es -> Forall (Forall usual) (wrap_ids cur k es).
Proof.
  assert (U : usual SP) by (split; discriminate).
  induction es as [|e es IH]; intros cur k Hc He; cbn [wrap_ids].
  - constructor; [|constructor]. apply Forall_app. split; [exact Hc|]. repeat constructor; discriminate.
  - apply Forall_cons_iff in He as [H0 H1].
    assert (C : Forall usual (cur ++ e ++ [SP; SP])) by (apply Forall_app; split; [exact Hc|]; apply Forall_app; split; [exact H0|repeat constructor; discriminate]).
    destruct (Nat.eqb (S k mod 5) 0); [|now apply IH]. constructor; [exact C|]. apply IH; [repeat constructor; discriminate|exact H1].
Qed.
Lemma ids_fit T es : Forall (Forall usual) es -> Forall (fit T) (id_lines es).
Proof.
  intros H. eapply Forall_impl; [intros l Hl; apply usual_fit; exact Hl|]. apply wrap_usual; [repeat constructor; discriminate|exact H].
Qed.
Lemma signed_usual p n : 0 <= n -> Forall usual (signed_id p n).
Proof. intros H. unfold signed_id. constructor; [destruct p; split; discriminate|now apply show_usual]. Qed.

(** ** The writer *)
Section Writer.
Context {F : Num} (HF : num_ok F) (HK : coords_not_keywords F).
Variable uuid_text : Z -> bytes.
Variable T : list bytes.
Lemma key_fit (p : point F) : fit T (SP :: SP :: point_string p).
Proof.
  apply fit_quiet; [do 2 (apply is_line_cons; [discriminate|]); now apply point_string_line|].
  destruct p as [[x y] z]. unfold face_of.
  assert (E : string_split (SP :: SP :: point_string (x, y, z)) = [pt_text F x; pt_text F y; pt_text F z]).
  { rewrite string_split_plain.
    - rewrite !words_sep by reflexivity. unfold point_string.
      rewrite (words_tok_sep (pt_text F x) SP); [|apply HF|reflexivity].
      rewrite (words_tok_sep (pt_text F y) SP); [|apply HF|reflexivity].
      rewrite words_tok by apply HF. reflexivity.
    - repeat (apply plain_cons; [reflexivity|]). unfold point_string.
      apply plain_app; [apply plain_token, HF|]. apply plain_cons; [reflexivity|].
      apply plain_app; [apply plain_token, HF|]. apply plain_cons; [reflexivity|].
      apply plain_token, HF. }
  rewrite E. destruct (beq (pt_text F x) "TFACE") eqn:B; [|reflexivity]. exfalso. apply beq_eq in B.
  apply (HK x). rewrite B. right. now left.
Qed.
Lemma keys_fit (s : MSurf F) ks : key_lines s = Ok ks -> Forall (fit T) ks.
Proof.
  intros H. unfold key_lines in H. apply bind_ok in H as [[[a b] c] [_ H]]. apply Forall_forall. intros l Hl.
  revert l Hl. eapply mapM_all; [|exact H]. intros v l E. apply bind_ok in E as [p [_ E]].
  apply ok_eq in E. subst l. apply key_fit.
Qed.
Lemma tface_face i k n : 0 <= i -> token k -> plain n -> face_of (tface_line_of i k n) = Some (normalise n).
Proof.
  intros Hi Hk Hn. unfold face_of, tface_line_of.
  assert (P : plain (k ++ SP :: n)) by (apply plain_app; [now apply plain_token|apply plain_cons; [reflexivity|exact Hn]]).
  change (lit "TFACE " ++ show i ++ SP :: k ++ SP :: n) with (lit "TFACE" ++ SP :: show i ++ SP :: k ++ SP :: n).
  rewrite split_kw; [|tok|apply plain_app; [apply plain_token, show_token; exact Hi|apply plain_cons; [reflexivity|exact P]]].
  rewrite split_kw; [|apply show_token; exact Hi|exact P]. rewrite split_kw by assumption.
  rewrite beq_refl. now rewrite read_name_normalise.
Qed.
Lemma item_fit (m : SModel F) kk n ls st declared item ls' st' :
  MlRound.declares m ls st declared -> (forall k, kk = Ok k -> token k) -> plain n ->
  (~ In item declared -> In (normalise n) T) -> Forall (fit T) ls ->
  write_tface_item m kk (Ok n) (ls, st) item = Ok (ls', st') -> Forall (fit T) ls'.
Proof.
  intros D Hk Hn HT Hl H. unfold write_tface_item in H. rewrite (MlRound.d_comps _ _ _ _ D) in H.
  destruct (in_dec Z.eq_dec item declared) as [Hi|Hi].
  - rewrite find_numbered in H by assumption. cbn [bind] in H. apply ok_pair in H as [<- <-]. exact Hl.
  - rewrite find_numbered_none in H by assumption. apply bind_ok in H as [k [Ek H]]. cbn [bind] in H.
    apply bind_ok in H as [s [Es H]]. apply bind_ok in H as [ks [Eks H]]. apply ok_pair in H as [<- _].
    apply Forall_app. split; [exact Hl|]. pose proof (lenz_nonneg declared) as L. rewrite (MlRound.d_next _ _ _ _ D).
    constructor; [|now apply (keys_fit s)]. split.
    + unfold tface_line_of. apply is_line_app; [isl|]. apply is_line_app; [apply show_line; lia|]. apply is_line_cons; [discriminate|].
      apply is_line_app; [apply token_line; auto|]. apply is_line_cons; [discriminate|]. now apply plain_line.
    + intros x. rewrite tface_face by (auto; lia). intros X. injection X as <-. auto.
Qed.
Lemma items_fit (m : SModel F) kk n items : (forall k, kk = Ok k -> token k) -> plain n -> forall ls st declared ls' st',
  MlRound.declares m ls st declared ->
  (forall i, In i items -> ~ In i declared -> In (normalise n) T) -> Forall (fit T) ls ->
  foldM (write_tface_item m kk (Ok n)) items (ls, st) = Ok (ls', st') -> Forall (fit T) ls'.
Proof.
  intros Hk Hn. induction items as [|x items IH]; intros ls st declared ls' st' D HT Hl H; cbn [foldM] in H.
  - apply ok_pair in H as [<- <-]. exact Hl.
  - apply bind_ok in H as [[ls1 st1] [H1 H]].
    destruct (declare_item HF HK uuid_text m _ _ _ _ _ _ _ _ D H1) as [d1 [D1 I1]].
    eapply IH; [exact D1| |eapply item_fit; [exact D|exact Hk|exact Hn| |exact Hl|exact H1]|exact H].
    + intros i Hi Hd. apply (HT i); [now right|]. intros X. apply Hd, I1. now left.
    + intros X. apply (HT x); [now left|exact X].
Qed.
(** The names of the objects with a surface that is in no object before. *)
Fixpoint own_names (seen : list Z) (gs : list (bytes * list Z)) : list bytes :=
  match gs with
  | [] => []
  | g :: r => (if existsb (fun i => negb (existsb (Z.eqb i) seen)) (snd g) then [normalise (fst g)] else []) ++ own_names (seen ++ snd g) r
  end.
Definition section_of (c : res bytes * res bytes * list Z) (g : bytes * list Z) : Prop :=
  (forall k, fst (fst c) = Ok k -> token k) /\ snd (fst c) = Ok (fst g) /\ plain (fst g) /\ snd c = snd g.
Lemma sections_fit (m : SModel F) secs gs : Forall2 section_of secs gs -> forall seen ls st declared ls' st',
  MlRound.declares m ls st declared -> (forall i, In i declared <-> In i seen) -> incl (own_names seen gs) T -> Forall (fit T) ls ->
  foldM (fun acc c => let '(k, n, items) := c in foldM (write_tface_item m k n) items acc) secs (ls, st) = Ok (ls', st') ->
  Forall (fit T) ls'.
Proof.
  induction 1 as [|[[kk nn] items] [n gi] secs gs (R1 & R2 & R3 & R4) _ IH]; intros seen ls st declared ls' st' D HD HT Hl H; cbn [foldM] in H.
  - apply ok_pair in H as [<- <-]. exact Hl.
  - cbn [fst snd] in R1, R2, R3, R4. subst nn gi. apply bind_ok in H as [[ls1 st1] [H1 H]].
    destruct (declare_items HF HK uuid_text m _ _ _ _ _ _ _ _ D H1) as [d1 [D1 I1]].
    cbn [own_names fst snd] in HT.
    eapply (IH (seen ++ items)); [exact D1| | | |exact H].
    + intros i. rewrite I1, HD, in_app_iff. reflexivity.
    + intros x Hx. apply HT, in_or_app. now right.
    + eapply items_fit; [exact R1|exact R3|exact D| |exact Hl|exact H1].
      intros i Hi Hd. apply HT, in_or_app. left.
      assert (existsb (fun i => negb (existsb (Z.eqb i) seen)) items = true) as ->.
      { apply existsb_exists. exists i. split; [exact Hi|]. apply negb_true_iff, not_true_iff_false. rewrite existsb_in.
        intros X. apply Hd, HD, X. }
      now left.
Qed.
Lemma own_names_in n gs : forall seen, In n (own_names seen gs) -> exists a g b i, gs = a ++ g :: b /\ n = normalise (fst g) /\
  In i (snd g) /\ ~ In i (seen ++ flat_map snd a).
Proof.
  induction gs as [|g gs IH]; intros seen H; cbn [own_names] in H; [destruct H|]. apply in_app_or in H as [H|H].
  - destruct (existsb (fun i => negb (existsb (Z.eqb i) seen)) (snd g)) eqn:E; [|destruct H]. destruct H as [<-|[]].
    apply existsb_exists in E as (i & E1 & E2). apply negb_true_iff, not_true_iff_false in E2. rewrite existsb_in in E2.
    exists [], g, gs, i. cbn [flat_map]. rewrite app_nil_r. repeat split; auto.
  - destruct (IH _ H) as (a & h & b & i & E1 & E2 & E3 & E4). exists (g :: a), h, b, i. split; [cbn [app]; now rewrite E1|].
    split; [exact E2|]. split; [exact E3|]. cbn [flat_map]. rewrite app_assoc. exact E4.
Qed.

Lemma universe_fit (m : SModel F) usides st ls st' : 0 <= next_id st -> (forall x k, find_id (comps st) x = Some k -> 0 <= k) ->
  write_universe m usides st = Ok (ls, st') -> Forall (fit T) ls /\ comps st' = comps st /\ next_id st' = next_id st + 1.
Proof.
  intros Hn Hp H. unfold write_universe in H. apply bind_ok in H as [es [He H]]. apply ok_pair in H as [<- <-].
  split; [|split; reflexivity]. constructor.
  - apply fit_quiet; [|quiet]. apply is_line_app; [isl|]. apply is_line_app; [now apply show_line|isl].
  - apply ids_fit, Forall_forall. eapply mapM_all; [|exact He]. intros i e E. apply bind_ok in E as [sd [_ E]].
    apply bind_ok in E as [k [Ek E]]. apply ok_eq in E. subst e. apply signed_usual. unfold comp_at in Ek.
    destruct (find_id (comps st) i) as [k'|] eqn:Q; [|discriminate]. apply ok_eq in Ek. subst k'. eauto.
Qed.
Lemma regions_fit rsides bs : forall ls st ls' st',
  (forall b, In b bs -> plain (label uuid_text (b_name b) (b_id b))) ->
  0 <= next_id st -> (forall x k, find_id (comps st) x = Some k -> 0 <= k) -> Forall (fit T) ls ->
  foldM (write_region uuid_text rsides) bs (ls, st) = Ok (ls', st') -> Forall (fit T) ls'.
Proof.
  induction bs as [|b bs IH]; intros ls st ls' st' Hb Hn Hp Hl H; cbn [foldM] in H.
  - apply ok_pair in H as [<- <-]. exact Hl.
  - apply bind_ok in H as [[ls1 st1] [H1 H]]. unfold write_region in H1.
    apply bind_ok in H1 as [es [He H1]]. apply bind_ok in H1 as [is [Hi H1]]. apply ok_pair in H1 as [<- <-].
    assert (C : forall i k, comp_at st i = Ok k -> 0 <= k).
    { intros i k Ek. unfold comp_at in Ek. destruct (find_id (comps st) i) as [k'|] eqn:Q; [|discriminate].
      apply ok_eq in Ek. subst k'. eauto. }
    eapply IH; [| | | |exact H]; cbn [comps next_id].
    + intros b' Hb'. apply Hb. now right.
    + lia.
    + intros x k Hx. apply find_emplace in Hx as [Hx| ->]; eauto.
    + apply Forall_app. split; [exact Hl|]. constructor.
      * apply fit_quiet; [|quiet]. apply is_line_app; [isl|]. apply is_line_app; [now apply show_line|]. apply is_line_cons; [discriminate|].
        apply plain_line. change (component_name uuid_text (b_name b) (b_id b)) with (underscored (label uuid_text (b_name b) (b_id b))).
        apply underscored_plain, Hb. now left.
      * apply ids_fit, Forall_app. split; [|apply Forall_concat]; apply Forall_forall.
        -- eapply mapM_all; [|exact He]. intros i e E. apply bind_ok in E as [sd [_ E]].
           apply bind_ok in E as [k [Ek E]]. apply ok_eq in E. subst e. apply signed_usual. eauto.
        -- eapply mapM_all; [|exact Hi]. intros i e E. apply bind_ok in E as [k [Ek E]]. apply ok_eq in E. subst e.
           constructor; [apply signed_usual; eauto|]. constructor; [apply signed_usual; eauto|]. constructor.
Qed.
Lemma units_fit kw st us ls : (forall n, is_line n -> is_line (kw ++ n) /\ face_of (kw ++ n) = None) ->
  (forall u n, In u us -> c_name u = Some n -> plain n) ->
  (forall x k, find_id (comps st) x = Some k -> 0 <= k) ->
  mapM (write_unit kw st) us = Ok ls -> Forall (fit T) (List.concat ls).
Proof.
  intros Hkw Hu Hp H. apply Forall_concat, Forall_forall. intros l Hl. apply mapM_ok in H.
  destruct (PropsLsoAgain.Forall2_in_r _ _ _ _ H Hl) as (u & U1 & E). clear H Hl. unfold write_unit in E.
  apply bind_ok in E as [n [En E]]. apply bind_ok in E as [es [He E]]. apply ok_eq in E. subst l.
  unfold name_value in En. destruct (c_name u) as [n'|] eqn:En'; [|discriminate]. apply ok_eq in En. subst n'.
  constructor.
  - destruct (Hkw n) as [K1 K2]; [now apply plain_line, (Hu u)|]. now apply fit_quiet.
  - apply ids_fit, Forall_forall. eapply mapM_all; [|exact He]. intros i e Ee. apply bind_ok in Ee as [k [Ek Ee]].
    apply ok_eq in Ee. subst e. apply show_usual. unfold comp_at in Ek. destruct (find_id (comps st) i) as [k'|] eqn:Q; [|discriminate].
    apply ok_eq in Ek. subst k'. eauto.
Qed.
(** The objects *)
Lemma crs_fit : Forall (fit T) (write_CRS default_crs).
Proof. repeat (apply Forall_cons; [apply fit_quiet; [isl|vm_compute; reflexivity]|]). constructor. Qed.
Lemma header_fit n : is_line n -> Forall (fit T) (write_header (Some n)).
Proof.
  intros H. cbn [write_header app].
  constructor; [apply fit_quiet; [isl|vm_compute; reflexivity]|].
  constructor; [apply fit_quiet; [apply is_line_app; [isl|exact H]|quiet]|].
  constructor; [apply fit_quiet; [isl|vm_compute; reflexivity]|]. constructor.
Qed.
Definition unsigned_surf (s : MSurf F) : Prop :=
  Forall (fun t => let '(a, b, c) := t in 0 <= a /\ 0 <= b /\ 0 <= c) (s_tris s) /\
  Forall (Forall (fun e => 0 <= fst e /\ 0 <= snd e)) (s_loops s).
Lemma surface_fit (s : MSurf F) o : unsigned_surf s -> 0 <= o -> Forall (fit T) (write_surface s o).
Proof.
  intros [Ht _] Ho. unfold write_surface. apply Forall_app. split.
  - clear Ht. revert o Ho. induction (s_points s) as [|p ps IH]; intros o Ho; [constructor|]. cbn [ml_vrtx_lines]. constructor; [|apply IH; lia].
    apply fit_quiet; [|quiet]. apply is_line_app; [isl|]. apply is_line_app; [now apply show_line|]. apply is_line_cons; [discriminate|].
    now apply point_string_line.
  - apply Forall_map, Forall_map. eapply Forall_impl; [|exact Ht]. intros [[a b] c] (Ha & Hb & Hc). cbn [plus_tri trgl_line].
    apply fit_quiet; [|quiet]. apply is_line_app; [isl|]. apply is_line_app; [apply show_line; lia|]. apply is_line_cons; [discriminate|].
    apply is_line_app; [apply show_line; lia|]. apply is_line_cons; [discriminate|]. apply show_line; lia.
Qed.
Lemma offsets_fit (ss : list (MSurf F)) : Forall unsigned_surf ss -> forall o, 0 <= o ->
  Forall (fun x => 0 <= fst x /\ unsigned_surf (snd x)) (with_offsets o ss).
Proof.
  induction 1 as [|s ss H _ IH]; intros o Ho; cbn [with_offsets]; constructor; [split; assumption|].
  apply IH. pose proof (lenz_nonneg (s_points s)). lia.
Qed.
Lemma starts_fit (s : MSurf F) o : unsigned_surf s -> 0 <= o -> Forall (fun e => 0 <= fst e /\ 0 <= snd e) (line_starts_of s o).
Proof.
  intros [_ Hl] Ho. unfold line_starts_of. destruct (s_loops s) as [|l ls]; [constructor|]. apply Forall_cons_iff in Hl as [Hl _].
  apply Forall_map, Forall_forall. intros e He. apply filter_In in He as [He _]. rewrite Forall_forall in Hl. specialize (Hl e He). cbn. lia.
Qed.
Lemma borders_fit es : Forall (fun e => 0 <= fst e /\ 0 <= snd e) es -> forall o, 0 <= o -> Forall (fit T) (border_lines o es).
Proof.
  induction 1 as [|e es [H1 H2] _ IH]; intros o Ho; cbn [border_lines]; constructor; [|apply IH; lia].
  apply fit_quiet; [|quiet]. apply is_line_app; [isl|]. apply is_line_app; [apply show_line; lia|]. apply is_line_cons; [discriminate|].
  apply is_line_app; [apply show_line; lia|]. apply is_line_cons; [discriminate|]. apply show_line; lia.
Qed.
Lemma object_fit k n (ss : list (MSurf F)) : token k -> plain n -> Forall unsigned_surf ss -> Forall (fit T) (surface_object k n ss).
Proof.
  intros Hk Hn Hs. unfold surface_object. cbn zeta. pose proof (offsets_fit ss Hs 1 ltac:(lia)) as O.
  assert (S : Forall (fun e => 0 <= fst e /\ 0 <= snd e) (flat_map (fun x => line_starts_of (snd x) (fst x)) (with_offsets 1 ss))).
  { apply Forall_flat_map. eapply Forall_impl; [|exact O]. intros x [X1 X2]. now apply starts_fit. }
  pose proof (plain_line n Hn) as Hl.
  apply Forall_app; split; [constructor; [|constructor]; apply fit_quiet; [isl|vm_compute; reflexivity]|].
  apply Forall_app; split; [now apply header_fit|].
  apply Forall_app; split; [apply crs_fit|].
  apply Forall_app; split.
  { constructor; [apply fit_quiet; [apply is_line_app; [isl|exact Hl]|quiet]|].
    constructor; [apply fit_quiet; [apply is_line_app; [isl|now apply token_line]|quiet]|]. constructor. }
  apply Forall_app; split.
  { apply Forall_flat_map. eapply Forall_impl; [|exact O]. intros x [X1 X2]. constructor; [apply fit_quiet; [isl|vm_compute; reflexivity]|].
    now apply surface_fit. }
  apply Forall_app; split.
  { apply Forall_map. eapply Forall_impl; [|exact S]. intros e [E1 E2]. apply fit_quiet; [|quiet].
    unfold bstone_line. apply is_line_app; [isl|now apply show_line]. }
  apply Forall_app; split.
  { apply borders_fit; [exact S|]. clear. assert (0 <= fold_right Z.add 0 (map (fun s : MSurf F => lenz (s_points s)) ss)).
    { induction ss as [|s ss IH]; cbn [map fold_right]; [lia|]. pose proof (lenz_nonneg (s_points s)). lia. }
    lia. }
  constructor; [|constructor]. apply fit_quiet; [isl|vm_compute; reflexivity].
Qed.
End Writer.

(** ** The reader *)
Section Reader.
Variable T : list bytes.
(** Only the first entry of a name has a feature, and its name is in [T]. *)
Fixpoint filled_first (seen : list bytes) (ts : list TsMl) : Prop :=
  match ts with
  | [] => True
  | t :: r => (tm_feature t <> [] -> In (tm_name t) T /\ ~ In (tm_name t) seen) /\ filled_first (tm_name t :: seen) r
  end.
Lemma ff_app seen ts n : filled_first seen ts -> filled_first seen (ts ++ [mkTsMl n [] []]).
Proof.
  revert seen. induction ts as [|t ts IH]; intros seen H; cbn [app filled_first tm_feature tm_name] in *; [split; [congruence|exact I]|].
  destruct H as [H1 H2]. split; [exact H1|now apply IH].
Qed.
Lemma ff_add name f s ts : In name T -> forall seen ts', ~ In name seen -> filled_first seen ts -> add_tface name f s ts = Some ts' ->
  filled_first seen ts' /\ map tm_name ts' = map tm_name ts.
Proof.
  intros HT. induction ts as [|t ts IH]; intros seen ts' Hs H E; cbn [add_tface] in E; [discriminate|]. destruct H as [H1 H2].
  destruct (beq (tm_name t) name) eqn:B.
  - apply beq_eq in B. assert (mkTsMl (tm_name t) f (tm_faces t ++ [s]) :: ts = ts') as <- by congruence.
    cbn [filled_first tm_feature tm_name map]. rewrite B in *. repeat split; auto.
  - apply beq_neq in B. destruct (add_tface name f s ts) as [ts1|] eqn:E1; [|discriminate]. cbn [option_map] in E.
    assert (t :: ts1 = ts') as <- by congruence. destruct (IH (tm_name t :: seen) ts1) as [I1 I2]; [|exact H2|reflexivity|].
    + intros [X|X]; [congruence|tauto].
    + cbn [filled_first map]. rewrite I2. repeat split; auto; apply H1; assumption.
Qed.
Lemma ff_nodup ts : forall seen, filled_first seen ts -> Forall (fun t => tm_feature t <> []) ts ->
  NoDup (map tm_name ts) /\ incl (map tm_name ts) T /\ forall n, In n seen -> ~ In n (map tm_name ts).
Proof.
  induction ts as [|t ts IH]; intros seen H HF; cbn [map]; [split; [constructor|split; [intros x []|intros n _ []]]|].
  destruct H as [H1 H2]. apply Forall_cons_iff in HF as [HF0 HF1]. destruct (H1 HF0) as [HT Hs]. destruct (IH _ H2 HF1) as (I1 & I2 & I3).
  split; [constructor; [apply I3; now left|exact I1]|]. split.
  - intros x [<-|Hx]; auto.
  - intros n Hn [X|X]; [subst n; tauto|]. apply (I3 n); [now right|exact X].
Qed.
Lemma ids_rest parse ls : forall vs r, read_ids parse ls = Ok (vs, r) -> incl r ls.
Proof.
  induction ls as [|l ls IH]; intros vs r H; cbn [read_ids] in H; [discriminate|].
  apply bind_ok in H as [[vs1 stop] [_ H]]. destruct stop.
  - apply ok_pair in H as [_ <-]. intros x Hx. now right.
  - apply bind_ok in H as [[vs2 r2] [E H]]. apply ok_pair in H as [_ <-]. intros x Hx. right. eapply IH; eauto.
Qed.
Definition faces_in (ls : list bytes) : Prop := forall l n, In l ls -> face_of l = Some n -> In n T.
Lemma line_keeps st l rest st' r : component_line st l rest = Ok (st', r) -> (forall n, face_of l = Some n -> In n T) ->
  filled_first [] (i_tsurfs st) ->
  filled_first [] (i_tsurfs st') /\ (exists more, map tm_name (i_tsurfs st') = map tm_name (i_tsurfs st) ++ more) /\ incl r rest.
Proof.
  intros H HT HI. unfold component_line in H. apply bind_ok in H as [kw [Ek H]]. cbn zeta in H. unfold face_of in HT.
  destruct (string_split l) as [|w ws]; [discriminate|]. cbn [front tl] in *. apply ok_eq in Ek. subst w.
  destruct st as [ts ss un bs us fs]. cbn [i_tsurfs] in *.
  assert (Z : forall q, incl q rest -> filled_first [] ts /\ (exists more, map tm_name ts = map tm_name ts ++ more) /\ incl q rest).
  { intros q Hq. split; [exact HI|]. split; [exists []; now rewrite app_nil_r|exact Hq]. }
  destruct (beq kw "TSURF").
  { apply ok_pair in H as [<- <-]. cbn [i_tsurfs]. split; [now apply ff_app|]. split; [|intros x Hx; exact Hx].
    exists [read_name ws]. now rewrite map_app. }
  destruct (beq kw "TFACE").
  { apply bind_ok in H as [f [Ef H]]. destruct ws as [|w0 [|w1 ws]]; [discriminate|discriminate|]. cbn [skipn] in H.
    destruct (add_tface (read_name ws) f (lenz ss) ts) as [ts'|] eqn:E; [|discriminate]. apply ok_pair in H as [<- <-]. cbn [i_tsurfs].
    destruct (ff_add _ _ _ _ (HT _ eq_refl) [] ts' (fun X => X) HI E) as [A1 A2]. split; [exact A1|]. split; [|intros x Hx; exact Hx].
    exists []. now rewrite app_nil_r. }
  destruct (beq kw "REGION").
  { apply bind_ok in H as [w0 [_ H]]. destruct (beq _ "Universe").
    - apply bind_ok in H as [[vs q] [E H]]. apply bind_ok in H as [ns [_ H]]. apply ok_pair in H as [<- <-]. apply Z. eapply ids_rest; eauto.
    - apply bind_ok in H as [[vs q] [E H]]. apply bind_ok in H as [ns [_ H]]. apply bind_ok in H as [[bd it] [_ H]].
      apply ok_pair in H as [<- <-]. apply Z. eapply ids_rest; eauto. }
  destruct (beq kw "LAYER").
  { apply bind_ok in H as [[vs q] [E H]]. apply ok_pair in H as [<- <-]. apply Z. eapply ids_rest; eauto. }
  destruct (beq kw "FAULT_BLOCK").
  { apply bind_ok in H as [[vs q] [E H]]. apply ok_pair in H as [<- <-]. apply Z. eapply ids_rest; eauto. }
  apply ok_pair in H as [<- <-]. apply Z. intros x Hx; exact Hx.
Qed.
Lemma loop_keeps fuel : forall st ls st' r, components_loop fuel st ls = Ok (st', r) -> faces_in ls ->
  filled_first [] (i_tsurfs st) ->
  filled_first [] (i_tsurfs st') /\ exists more, map tm_name (i_tsurfs st') = map tm_name (i_tsurfs st) ++ more.
Proof.
  induction fuel as [|fuel IH]; intros st ls st' r H HT HI; cbn [components_loop] in H; [discriminate|].
  destruct ls as [|l ls]; [discriminate|]. destruct (starts_with l "END").
  - apply ok_pair in H as [<- <-]. split; [exact HI|]. exists []. now rewrite app_nil_r.
  - apply bind_ok in H as [[st1 r1] [E H]]. destruct (line_keeps _ _ _ _ _ E) as (A1 & [m1 A2] & A3); [intros n; apply HT; now left|exact HI|].
    destruct (IH _ _ _ _ H) as (B1 & [m2 B2]); [|exact A1|].
    + intros x n Hx. apply HT. right. now apply A3.
    + split; [exact B1|]. exists (m1 ++ m2). now rewrite B2, A2, app_assoc.
Qed.
Lemma loop_tsurfs names : Forall plain names -> forall fuel st ls st' r,
  components_loop fuel st (map tsurf_line names ++ ls) = Ok (st', r) -> faces_in ls -> filled_first [] (i_tsurfs st) ->
  filled_first [] (i_tsurfs st') /\ exists more, map tm_name (i_tsurfs st') = map tm_name (i_tsurfs st) ++ map normalise names ++ more.
Proof.
  induction 1 as [|n names Hn _ IH]; intros fuel st ls st' r H HT HI; cbn [map app] in H.
  - now apply loop_keeps in H.
  - destruct fuel as [|fuel]; [discriminate|]. cbn [components_loop] in H.
    change (starts_with (tsurf_line n) "END") with false in H. cbv iota in H.
    assert (E : component_line st (tsurf_line n) (map tsurf_line names ++ ls)
      = Ok (mkMlSt (i_tsurfs st ++ [mkTsMl (normalise n) [] []]) (i_surfaces st) (i_universe st) (i_blocks st) (i_units st) (i_fblocks st),
            map tsurf_line names ++ ls)).
    { unfold component_line, tsurf_line. change (lit "TSURF " ++ n) with (lit "TSURF" ++ SP :: n).
      rewrite split_kw; [|tok|exact Hn]. cbn [front bind tl]. destruct st. rewrite beq_refl, read_name_normalise. reflexivity. }
    rewrite E in H. cbn [bind] in H. apply IH in H; [|exact HT|cbn [i_tsurfs]; now apply ff_app].
    cbn [i_tsurfs] in H. destruct H as [H1 [more H2]]. split; [exact H1|]. exists more. rewrite H2, map_app, <- !app_assoc. reflexivity.
Qed.
End Reader.
Lemma featured st cs : create_tsurfs st = Ok cs -> Forall (fun t => tm_feature t <> []) (i_tsurfs st).
Proof.
  intros H. unfold create_tsurfs in H. apply bind_ok in H as [ks [E _]]. apply mapM_ok in E. apply Forall_forall. intros t Ht.
  destruct (PropsLsoAgain.Forall2_in_l _ _ _ _ E Ht) as (k & _ & Q). intros X. rewrite X in Q. discriminate.
Qed.
Lemma same_place {A B} (f : A -> B) a : forall g b a' g' b', NoDup (map f (a ++ g :: b)) -> a ++ g :: b = a' ++ g' :: b' -> f g = f g' ->
  a = a' /\ g = g'.
Proof.
  induction a as [|x a IH]; intros g b [|x' a'] g' b' N E Ef; cbn [app map] in *.
  - injection E as -> _. auto.
  - exfalso. injection E as -> ->. apply NoDup_cons_iff in N as [N _]. apply N. rewrite Ef, map_app. apply in_or_app. right. now left.
  - exfalso. injection E as -> <-. apply NoDup_cons_iff in N as [N _]. apply N. rewrite <- Ef, map_app. apply in_or_app. right. now left.
  - injection E as -> E. apply NoDup_cons_iff in N as [_ N]. destruct (IH _ _ _ _ _ N E Ef) as [-> ->]. auto.
Qed.

(** ** C147 *)
Lemma named_labels {K} uuid_text (l : list (Coll K)) fs : mapM (fun c => name_value (c_name c)) l = Ok fs ->
  fs = map (fun c => label uuid_text (c_name c) (c_id c)) l /\ forall c, In c l -> name_value (c_name c) = Ok (label uuid_text (c_name c) (c_id c)).
Proof.
  intros H. apply mapM_ok in H. induction H as [|c n l fs H _ [IH1 IH2]]; [split; [reflexivity|intros _ []]|].
  assert (E : name_value (c_name c) = Ok (label uuid_text (c_name c) (c_id c))) by (destruct (c_name c); [reflexivity|discriminate]).
  split; [cbn [map]; rewrite <- IH1; f_equal; rewrite E in H; now apply ok_eq in H|]. intros x [<-|Hx]; auto.
Qed.
Theorem C147_loaded_again_needs : forall (F : Num) uuid_text (m : SModel F) usides rsides text out,
  num_ok F -> coords_not_keywords F -> plain_names uuid_text m -> unsigned_vertices m ->
  write_ml uuid_text m usides rsides = Ok text -> read_ml F text = Ok out ->
  (* no two objects have the same name, and each has a surface that is in no object before *)
  NoDup (map (fun g => normalise (fst g)) (objects uuid_text m)) /\
  forall a g b, objects uuid_text m = a ++ g :: b -> exists i, In i (snd g) /\ ~ In i (flat_map snd a).
Proof.
  intros F uuid_text m usides rsides text out HF HK PN UV W R.
  set (T := own_names [] (objects uuid_text m)).
  unfold write_ml, rmap in W. apply bind_ok in W as [lines [W Wt]]. apply ok_eq in Wt. subst text.
  unfold ml_lines in W. apply bind_ok in W as [cs [Wc W]]. apply bind_ok in W as [ss [Ws W]]. apply ok_eq in W. subst lines.
  unfold write_components in Wc. apply bind_ok in Wc as [l1 [E1 Wc]]. apply bind_ok in Wc as [[l2 st2] [E2 Wc]].
  apply bind_ok in Wc as [[l3 st3] [E3 Wc]]. apply bind_ok in Wc as [[l4 st4] [E4 Wc]].
  apply bind_ok in Wc as [l5 [E5 Wc]]. apply bind_ok in Wc as [l6 [E6 Wc]]. apply ok_eq in Wc. subst cs.
  unfold write_tsurfs in E1. apply bind_ok in E1 as [fs [Ef E1]]. apply bind_ok in E1 as [hs [Eh E1]]. apply ok_eq in E1.
  destruct (named_labels uuid_text _ _ Ef) as [-> Nf]. destruct (named_labels uuid_text _ _ Eh) as [-> Nh].
  assert (EN : l1 = map tsurf_line (map fst (objects uuid_text m))).
  { rewrite <- E1. f_equal. unfold objects. rewrite !map_app, !map_map. reflexivity. }
  clear E1 Ef Eh.
  assert (SO : Forall2 section_of (sections uuid_text m) (objects uuid_text m)).
  { unfold sections, objects. repeat apply Forall2_app.
    - pose proof (pn_bounds _ _ PN) as P. induction (m_bounds m) as [|c l IH]; cbn [map]; constructor; [|apply IH; intros; apply P; now right].
      split; [intros k [= <-]; tok|]. split; [reflexivity|]. split; [|reflexivity]. apply underscored_plain, P. now left.
    - pose proof (pn_faults _ _ PN) as P. revert P Nf. induction (m_faults m) as [|c l IH]; intros P Nf; cbn [map]; constructor.
      + split; [intros k [= <-]; destruct (c_type c); tok|]. split; [apply Nf; now left|]. split; [|reflexivity]. apply P. now left.
      + apply IH; [intros; apply P; now right|]. intros x Hx. apply Nf. now right.
    - pose proof (pn_horizons _ _ PN) as P. revert P Nh. induction (m_horizons m) as [|c l IH]; intros P Nh; cbn [map]; constructor.
      + split; [intros k; cbn [fst]; destruct (c_type c); cbn [horizon_text]; intros K; try discriminate; apply ok_eq in K; subst k; tok|].
        split; [apply Nh; now left|]. split; [|reflexivity]. apply P. now left.
      + apply IH; [intros; apply P; now right|]. intros x Hx. apply Nh. now right.
    - change (unclassified m) with (filter (fun s => alone m (s_id s)) (m_surfaces m)).
      assert (P : forall s, In s (filter (fun s => alone m (s_id s)) (m_surfaces m)) -> plain (label uuid_text (s_name s) (s_id s))).
      { intros s Hs. apply filter_In in Hs as [Hs Ha]. now apply (pn_surfaces _ _ PN). }
      revert P. induction (filter (fun s => alone m (s_id s)) (m_surfaces m)) as [|c l IH]; intros P; cbn [map]; constructor; [|apply IH; intros; apply P; now right].
      split; [intros k [= <-]; tok|]. split; [reflexivity|]. split; [|reflexivity]. apply underscored_plain, P. now left. }
  assert (OP : Forall plain (map fst (objects uuid_text m))).
  { apply Forall_map, Forall_forall. intros g Hg. destruct (PropsLsoAgain.Forall2_in_r _ _ _ _ SO Hg) as (c & _ & _ & _ & H & _). exact H. }
  assert (D0 : MlRound.declares (F:=F) m [] (mkComps [] 1) []).
  { constructor; try reflexivity; [constructor|]. intros [|k] i; discriminate. }
  destruct (declare_sections HF HK uuid_text m (sections uuid_text m) _ _ _ _ _ D0 E2) as [declared [D _]].
  assert (F2 : Forall (fit T) l2).
  { eapply (sections_fit HF HK uuid_text T m); [exact SO|exact D0| | | |exact E2]; [intros i; reflexivity|intros x Hx; exact Hx|constructor]. }
  pose proof (lenz_nonneg declared) as Ld.
  assert (P2 : forall x k, find_id (comps st2) x = Some k -> 0 <= k).
  { rewrite (MlRound.d_comps _ _ _ _ D). intros x k Hx. apply numbered_find in Hx as [j [_ ->]]; [lia|apply D]. }
  destruct (universe_fit T m usides st2 l3 st3) as (F3 & C3 & N3); [rewrite (MlRound.d_next _ _ _ _ D); lia|exact P2|exact E3|].
  rewrite <- C3 in P2. assert (N3' : 0 <= next_id st3) by (rewrite N3, (MlRound.d_next _ _ _ _ D); lia).
  assert (F4 : Forall (fit T) l4).
  { eapply (regions_fit uuid_text T rsides (m_blocks m) [] st3); [|exact N3'|exact P2|constructor|exact E4].
    intros b Hb. now apply (pn_blocks _ _ PN). }
  pose proof (regions_positive uuid_text rsides (m_blocks m) [] st3 l4 st4 N3' P2 E4) as P4.
  assert (F5 : Forall (fit T) (List.concat l5)).
  { eapply (units_fit T (lit "LAYER ")); [| |exact P4|exact E5].
    - intros n Hn. split; [apply is_line_app; [isl|exact Hn]|quiet].
    - intros u n Hu. apply (pn_units _ _ PN). apply in_or_app. now left. }
  assert (F6 : Forall (fit T) (List.concat l6)).
  { eapply (units_fit T (lit "FAULT_BLOCK ")); [| |exact P4|exact E6].
    - intros n Hn. split; [apply is_line_app; [isl|exact Hn]|quiet].
    - intros u n Hu. apply (pn_units _ _ PN). apply in_or_app. now right. }
  assert (F7 : Forall (fit T) ss).
  { unfold write_model_surfaces in Ws. apply bind_ok in Ws as [os [Eo Ws]]. apply ok_eq in Ws. subst ss.
    apply Forall_concat, Forall_forall. intros o Ho. apply mapM_ok in Eo.
    destruct (PropsLsoAgain.Forall2_in_r _ _ _ _ Eo Ho) as ([[kk nn] items] & Hc & E).
    destruct (PropsLsoAgain.Forall2_in_l _ _ _ _ SO Hc) as (g & _ & G1 & G2 & G3 & _). cbn [fst snd] in G1, G2.
    apply bind_ok in E as [n' [En E]]. apply bind_ok in E as [k' [Ekk E]]. apply bind_ok in E as [surfs [Es E]]. apply ok_eq in E. subst o.
    rewrite G2 in En. apply ok_eq in En. subst n'.
    apply (object_fit HF T); [auto|exact G3|]. apply Forall_forall. eapply mapM_all; [|exact Es].
    intros i s E. unfold surface_of in E. destruct (find _ _) as [s'|] eqn:Q; [|discriminate]. apply ok_eq in E. subst s'.
    apply find_some in Q as [Q _]. exact (UV s Q). }
  assert (FE : fit T (lit "END")) by (apply fit_quiet; [isl|vm_compute; reflexivity]).
  set (rest := l2 ++ l3 ++ l4 ++ List.concat l5 ++ List.concat l6 ++ [lit "END"]) in *.
  assert (FR : Forall (fit T) (rest ++ ss)).
  { unfold rest. repeat (apply Forall_app; split); try assumption. constructor; [exact FE|constructor]. }
  unfold read_ml in R. rewrite open_unlines in R.
  2:{ apply Forall_app; split; [constructor; [isl|constructor]|].
      apply Forall_app; split; [apply write_header_lines, (pn_title _ _ PN)|].
      apply Forall_app; split; [repeat (apply Forall_cons; [isl|]); constructor|].
      rewrite <- app_assoc. apply Forall_app; split.
      - rewrite EN. apply Forall_map. eapply Forall_impl; [|exact OP]. intros n Hn. unfold tsurf_line. apply is_line_app; [isl|now apply plain_line].
      - eapply Forall_impl; [|exact FR]. intros l [Hl _]. exact Hl. }
  cbn [app] in R. rewrite goto_if_next in R by reflexivity.
  rewrite read_header_written in R. cbn [bind] in R. rewrite read_CRS_default in R. cbn [bind pending nl] in R.
  apply bind_ok in R as [[st r] [Ec R]]. apply bind_ok in R as [colls [Et _]].
  unfold read_components in Ec. rewrite <- app_assoc, EN in Ec.
  destruct (loop_tsurfs T _ OP _ _ _ _ _ Ec) as [FF [more Enames]].
  { intros l n Hl. rewrite Forall_forall in FR. apply (FR l Hl). }
  { exact I. }
  cbn [empty_st i_tsurfs map app] in Enames. rewrite map_map in Enames.
  destruct (ff_nodup T _ [] FF (featured _ _ Et)) as (ND & IN & _). rewrite Enames in ND, IN.
  pose proof (nodup_left _ _ ND) as ND1. split; [exact ND1|]. intros a g b Eg.
  assert (Hg : In (normalise (fst g)) T).
  { apply IN, in_or_app. left. rewrite Eg, map_app. apply in_or_app. right. now left. }
  apply own_names_in in Hg as (a' & g' & b' & i & G1 & G2 & G3 & G4). rewrite Eg in ND1, G1.
  destruct (same_place (fun g => normalise (fst g)) a g b a' g' b' ND1 G1 G2) as [-> ->]. exists i. auto.
Qed.
Print Assumptions C147_loaded_again_needs.

(** Any choice of objects has together at least as many surfaces as there are objects. *)
Lemma representatives (l : list (bytes * list Z)) (P : bytes * list Z -> bool) :
  (forall a g b, l = a ++ g :: b -> exists i, In i (snd g) /\ ~ In i (flat_map snd a)) ->
  exists reps, NoDup reps /\ List.length reps = List.length (filter P l) /\ incl reps (flat_map snd (filter P l)).
Proof.
  induction l as [|g l IH] using rev_ind; intros H; [exists []; split; [constructor|split; [reflexivity|intros x []]]|].
  destruct IH as (reps & R1 & R2 & R3).
  { intros a h b E. apply (H a h (b ++ [g])). rewrite E, <- app_assoc. reflexivity. }
  rewrite filter_app. cbn [filter]. destruct (P g).
  - destruct (H l g []) as (i & I1 & I2); [reflexivity|]. exists (i :: reps). split; [constructor; [|exact R1]|].
    + intros X. apply I2. apply R3, in_flat_map in X as (h & H1 & H2). apply in_flat_map. exists h. apply filter_In in H1 as [H1 _]. auto.
    + split; [rewrite app_length; cbn [List.length]; lia|]. rewrite flat_map_app. intros x [<-|Hx]; apply in_or_app; [right|left; auto].
      cbn [flat_map]. now rewrite app_nil_r.
  - rewrite app_nil_r. exists reps. auto.
Qed.
Theorem C147_as_many_surfaces : forall (F : Num) uuid_text (m : SModel F) usides rsides text out,
  num_ok F -> coords_not_keywords F -> plain_names uuid_text m -> unsigned_vertices m ->
  write_ml uuid_text m usides rsides = Ok text -> read_ml F text = Ok out ->
  forall chosen, exists surfaces, NoDup surfaces /\
    List.length surfaces = List.length (filter chosen (objects uuid_text m)) /\
    forall i, In i surfaces -> exists g, In g (objects uuid_text m) /\ chosen g = true /\ In i (snd g).
Proof.
  intros F u m us rs text out HF HK PN UV W R chosen.
  destruct (C147_loaded_again_needs F u m us rs text out HF HK PN UV W R) as [_ H].
  destruct (representatives _ chosen H) as (reps & R1 & R2 & R3). exists reps. split; [exact R1|]. split; [exact R2|].
  intros i Hi. apply R3, in_flat_map in Hi as (g & G1 & G2). apply filter_In in G1 as [G1 G3]. eauto.
Qed.
Print Assumptions C147_as_many_surfaces.

(** ** The second file of a model with surfaces in no collection *)
Lemma clean_plain n : clean n -> plain n.
Proof. intros (ws & _ & Hw & ->). now apply plain_join, words_tokens_of. Qed.
Lemma label_some u n i : label u (Some n) i = n.
Proof. reflexivity. Qed.
Section Twice.
Context {F : Num} (HF : num_ok F) (HK : coords_not_keywords F) (u : Z -> bytes).
Context (m : SModel F) us rs (E : exportable u m us rs) text out (L : read_ml F text = Ok out) nb (SM : same_model u m out nb).
Context (ids bids : list Z) (w : SModel F) (SEEN : ml_seen out ids bids w).

Lemma coll_names c : In c (o_colls out) -> plain (ci_name c).
Proof.
  intros Hc. assert (G : forall g, In g (groups u m) -> plain (gname g)) by (intros g Hg; apply clean_plain, (e_clean _ _ _ _ E g Hg)).
  assert (B : In c (map (fun g => mkCollIn (fst (fst g)) (gname g) (map nb (snd g))) (groups u m)) -> plain (ci_name c)).
  { intros X. apply in_map_iff in X as (g & <- & Hg). cbn [ci_name]. auto. }
  destruct (free m) as [|s l] eqn:Ef.
  - destruct (l_colls _ _ _ _ SM) as (more & Eo & Hm). rewrite Eo, (Hm Ef), app_nil_r in Hc. auto.
  - rewrite (l_undefined _ _ _ _ SM) in Hc by (rewrite Ef; discriminate). apply in_app_or in Hc as [Hc|[<-|[]]]; [auto|]. apply clean_plain, cleanb_ok. reflexivity.
Qed.
Lemma again_plain : plain_names u w.
Proof.
  assert (C : forall (K : Type) (kind : K -> kind_in) (f : CollIn -> bool) cs cs' (c : Coll K), Permutation cs cs' ->
     Forall2 (coll_as kind ids) (filter f (o_colls out)) cs' -> In c cs -> plain (label u (c_name c) (c_id c))).
  { intros K kind f cs cs' c P H Hc. apply (perm_in _ _ _ P) in Hc. destruct (PropsLsoAgain.Forall2_in_r _ _ _ _ H Hc) as (c0 & C1 & _ & C2 & _).
    apply filter_In in C1 as [C1 _]. rewrite C2, label_some. now apply coll_names. }
  assert (U : forall un n, In un (m_units m ++ m_fblocks m) -> c_name un = Some n -> plain n).
  { intros un n Hu En. destruct (e_units _ _ _ _ E un Hu) as [(n' & N1 & N2) _]. rewrite N1 in En. injection En as <-. now apply clean_plain. }
  constructor.
  - intros n. rewrite (ms_title _ _ _ _ SEEN), (l_title _ _ _ _ SM). destruct (m_title m) as [t|] eqn:Et; cbn [option_map]; [|discriminate].
    intros X. injection X as <-. apply normalise_line. now apply (e_title _ _ _ _ E).
  - intros s Hs Ha. exfalso. unfold alone in Ha. apply negb_true_iff, not_true_iff_false in Ha. apply Ha. apply existsb_in. clear Ha.
    destruct (seen_mesh text out L ids bids w SEEN s Hs) as (k & mesh & K1 & K2 & _).
    destruct (C116_surfaces F text out L) as ([_ M] & _ & tsurfs & extra & Ec & [_ O] & _).
    assert (Hk : In k (flat_map ci_surfaces tsurfs)) by (apply O, M, in_map_iff; now exists (k, mesh)).
    apply in_flat_map in Hk as (c & Hc & Hk). assert (Hco : In c (o_colls out)) by (rewrite Ec; apply in_or_app; now left).
    assert (D : forall (K : Type) (kind : K -> kind_in) (f : CollIn -> bool) cs, f c = true ->
       (exists cs', Permutation cs cs' /\ Forall2 (coll_as kind ids) (filter f (o_colls out)) cs') -> In (s_id s) (flat_map c_items cs)).
    { intros K kind f cs Ef (cs' & P & H). apply (flat_map_in_iff _ _ _ _ P), in_flat_map.
      destruct (PropsLsoAgain.Forall2_in_l _ _ _ c H) as (c' & C1 & _ & _ & _ & C2); [now apply filter_In|].
      exists c'. split; [exact C1|]. apply C2. eauto. }
    rewrite !in_app_iff. destruct (ci_kind c) as [t| |t] eqn:Kc.
    + right. left. eapply (D _ KFault is_fault); [unfold is_fault; now rewrite Kc|exact (ms_faults _ _ _ _ SEEN)].
    + left. eapply (D _ (fun _ => KBoundary) is_boundary); [unfold is_boundary; now rewrite Kc|exact (ms_bounds _ _ _ _ SEEN)].
    + right. right. left. eapply (D _ KHorizon is_horizon); [unfold is_horizon; now rewrite Kc|exact (ms_horizons _ _ _ _ SEEN)].
  - destruct (ms_bounds _ _ _ _ SEEN) as (cs & P & H). intros c. exact (C _ _ _ _ _ c P H).
  - destruct (ms_faults _ _ _ _ SEEN) as (cs & P & H). intros c. exact (C _ _ _ _ _ c P H).
  - destruct (ms_horizons _ _ _ _ SEEN) as (cs & P & H). intros c. exact (C _ _ _ _ _ c P H).
  - destruct (ms_blocks _ _ _ _ SEEN) as (bs & P & _ & H). intros b Hb. apply (perm_in _ _ _ P) in Hb.
    destruct (PropsLsoAgain.Forall2_in_r _ _ _ _ H Hb) as (r & R1 & R2 & _). rewrite R2, label_some.
    destruct (PropsLsoAgain.Forall2_in_r _ _ _ _ (l_blocks _ _ _ _ SM) R1) as (b0 & B1 & B2 & _). rewrite B2. apply clean_plain, (e_blocks _ _ _ _ E b0 B1).
  - destruct (ms_units _ _ _ _ SEEN) as (cs & P & H). destruct (ms_fblocks _ _ _ _ SEEN) as (fs & Pf & Hf). intros c n Hc En.
    apply in_app_or in Hc as [Hc|Hc].
    + apply (perm_in _ _ _ P) in Hc. destruct (PropsLsoAgain.Forall2_in_r _ _ _ _ H Hc) as (r & R1 & R2 & _). rewrite R2 in En. injection En as <-.
      destruct (PropsLsoAgain.Forall2_in_r _ _ _ _ (l_units _ _ _ _ SM) R1) as (u0 & U1 & U2 & _). apply (U u0); [apply in_or_app; now left|exact U2].
    + apply (perm_in _ _ _ Pf) in Hc. destruct (PropsLsoAgain.Forall2_in_r _ _ _ _ Hf Hc) as (r & R1 & R2 & _). rewrite R2 in En. injection En as <-.
      destruct (PropsLsoAgain.Forall2_in_r _ _ _ _ (l_fblocks _ _ _ _ SM) R1) as (u0 & U1 & U2 & _). apply (U u0); [apply in_or_app; now right|exact U2].
Qed.
Lemma again_unsigned : unsigned_vertices w.
Proof.
  intros s Hs. split.
  - pose proof (ss_tris _ (seen_sound text out L ids bids w SEEN)) as H. rewrite Forall_forall in H. specialize (H s Hs).
    eapply Forall_impl; [|exact H]. intros [[a b] c] ((Ha & _) & (Hb & _) & (Hc & _)). auto.
  - apply Forall_forall. intros loop Hl. apply Forall_forall. intros e He.
    destruct (ms_loops _ _ _ _ SEEN s loop e Hs Hl He) as [[H1 _] [H2 _]]. auto.
Qed.
Lemma filter_length_perm {A} (f : A -> bool) l l' : Permutation l l' -> List.length (filter f l) = List.length (filter f l').
Proof.
  induction 1 as [|x l l' _ IH|x y l|l1 l2 l3 _ IH1 _ IH2]; cbn [filter]; [reflexivity| | |congruence].
  - destruct (f x); cbn [List.length]; congruence.
  - destruct (f x), (f y); reflexivity.
Qed.
Lemma parts {A} (a b c d d' l : list A) : d = d' -> exists pre, a ++ b ++ c ++ d ++ l = pre ++ d' ++ l.
Proof. intros ->. exists (a ++ b ++ c). now rewrite <- !app_assoc. Qed.
Lemma again_free us' rs' text' out' : write_ml u w us' rs' = Ok text' -> read_ml F text' = Ok out' -> free m = [].
Proof.
  intros W R. destruct (free m) as [|s0 fr] eqn:Ef; [reflexivity|]. exfalso.
  assert (NE : free m <> []) by (rewrite Ef; discriminate). pose proof (l_undefined _ _ _ _ SM NE) as Eo.
  destruct (ms_bounds _ _ _ _ SEEN) as (cs & P & H). rewrite Eo in H.
  assert (FB : exists pre, filter is_boundary (map (fun g => mkCollIn (fst (fst g)) (gname g) (map nb (snd g))) (groups u m)
       ++ [mkCollIn KBoundary (lit "undefined boundary") (map nb (map s_id (free m)))])
     = pre ++ map (fun s => mkCollIn KBoundary (underscored (label u (s_name s) (s_id s))) [nb (s_id s)]) (free m)
       ++ [mkCollIn KBoundary (lit "undefined boundary") (map nb (map s_id (free m)))]).
  { unfold groups. rewrite !map_app, !filter_app, !map_map, <- !app_assoc. apply parts. apply filter_all.
    intros x Hx. apply in_map_iff in Hx as (s & <- & _). reflexivity. }
  destruct FB as [pre FB]. rewrite FB in H. clear FB Eo.
  apply Forall2_app_inv_l in H as (c1 & c2 & _ & H & ->). apply Forall2_app_inv_l in H as (cf & c3 & Hf & H & ->).
  inversion H as [|x cu y c4 Hu H4]. subst. inversion H4. subst. clear H H4.
  set (U := c_items cu) in *. destruct Hu as (_ & _ & HU1 & HU2). cbn [ci_surfaces] in HU2. fold U in HU1, HU2.
  (* the undefined boundary has at most as many surfaces as there were *)
  assert (LU : (List.length U <= List.length (free m))%nat).
  { rewrite <- (map_length (fun s => match nthz ids (nb (s_id s)) with Some i => i | None => 0 end) (free m)). apply NoDup_incl_length; [exact HU1|].
    intros i Hi. apply HU2 in Hi as (k & K1 & K2). rewrite map_map in K1. apply in_map_iff in K1 as (s & <- & Hs). apply in_map_iff. exists s. now rewrite K2. }
  set (chosen := fun g : bytes * list Z => forallb (fun i => existsb (Z.eqb i) U) (snd g)).
  destruct (C147_as_many_surfaces F u w us' rs' text' out' HF HK again_plain again_unsigned W R chosen) as (reps & R1 & R2 & R3).
  assert (LR : (List.length reps <= List.length U)%nat).
  { apply NoDup_incl_length; [exact R1|]. intros i Hi. destruct (R3 i Hi) as (g & _ & G1 & G2). unfold chosen in G1. rewrite forallb_forall in G1.
    specialize (G1 i G2). now apply existsb_in in G1. }
  assert (LF : (List.length (free m) + 1 <= List.length (filter chosen (objects u w)))%nat).
  { unfold objects. rewrite filter_app, app_length. etransitivity; [|apply Nat.le_add_r].
    rewrite (filter_length_perm _ _ _ (Permutation_map (fun c : Coll unit => (underscored (label u (c_name c) (c_id c)), c_items c)) P)).
    rewrite !map_app, filter_app, app_length. etransitivity; [|apply Nat.le_add_l].
    rewrite filter_all.
    - rewrite app_length, !map_length. apply PropsLsoAgain.F2_len in Hf. rewrite map_length in Hf. cbn [List.length map]. lia.
    - intros g Hg. unfold chosen. apply forallb_forall. intros i Hi. apply existsb_in. apply in_app_or in Hg as [Hg|[<-|[]]]; [|exact Hi].
      apply in_map_iff in Hg as (c & <- & Hc). cbn [snd] in Hi. destruct (PropsLsoAgain.Forall2_in_r _ _ _ _ Hf Hc) as (x & X1 & _ & _ & _ & X2).
      apply in_map_iff in X1 as (s & <- & Hs). destruct (proj1 (X2 i) Hi) as (k & K1 & K2). cbn [ci_surfaces] in K1. destruct K1 as [<-|[]].
      apply HU2. exists (nb (s_id s)). split; [|exact K2]. apply in_map, in_map, Hs. }
  lia.
Qed.
End Twice.

(** A model saved, loaded and saved again gives a file that can be loaded exactly when every surface was in a collection. *)
Theorem C147_second_file : forall (F : Num) uuid_text (m : SModel F) g,
  num_ok F -> coords_not_keywords F ->
  (exists us rs, exportable uuid_text m us rs) -> sides_found m g ->
  exists text out, export_ml uuid_text m g = Ok text /\ read_ml F text = Ok out /\
    forall ids bids w g', ml_seen out ids bids w -> sides_found w g' ->
      ((exists text' out', export_ml uuid_text w g' = Ok text' /\ read_ml F text' = Ok out') <->
       (forall s, In s (m_surfaces m) -> In (s_id s) (flat_map c_items (m_bounds m) ++ flat_map c_items (m_faults m) ++ flat_map c_items (m_horizons m)))).
Proof.
  intros F u m g HF HK EX SF. destruct (C142_reloaded F u m g HF HK EX SF) as (text & out & nb & E1 & E2 & SM). exists text, out.
  split; [exact E1|]. split; [exact E2|]. intros ids bids w g' SEEN SF'.
  assert (FE : free m = [] <-> forall s, In s (m_surfaces m) -> In (s_id s) (flat_map c_items (m_bounds m) ++ flat_map c_items (m_faults m) ++ flat_map c_items (m_horizons m))).
  { split.
    - intros H s Hs. destruct (in_dec Z.eq_dec (s_id s) (grouped m)) as [X|X]; [exact X|]. exfalso. assert (Y : In s (free m)) by now apply free_spec. rewrite H in Y. exact Y.
    - intros H. destruct (free m) as [|s l] eqn:Ef; [reflexivity|]. exfalso. assert (Y : In s (free m)) by (rewrite Ef; now left). apply free_spec in Y as [Y1 Y2]. apply Y2, (H s Y1). }
  rewrite <- FE. split.
  - intros (text' & out' & W & R). destruct EX as (us & rs & EX). unfold export_ml in W. apply bind_ok in W as [[us' rs'] [_ W]].
    exact (again_free HF HK u m us rs EX text out E2 nb SM ids bids w SEEN us' rs' text' out' W R).
  - intros H. destruct (C146_saved_again F u m g HF HK EX SF H) as (text1 & out1 & A1 & A2 & A3).
    assert (text1 = text) as -> by congruence. rewrite E2 in A2. apply ok_eq in A2. subst out1.
    destruct (A3 ids bids w g' SEEN SF') as (text' & out' & _ & _ & B1 & B2 & _). eauto.
Qed.
Print Assumptions C147_second_file.

(** ** Cases *)
(** Five objects: two model boundaries, a fault, a horizon, a surface in no collection. The fault shares a surface with a boundary and has one of its own. *)
Definition five : SModel ExNum := mkSModel (F:=ExNum) (Some (lit "five")) [ex_surf 1 0; ex_surf 2 10; ex_surf 3 20; ex_surf 4 30; ex_surf 5 40]
  [mkColl 10 (Some (lit "outer box")) tt [1]; mkColl 13 None tt [2]] [mkColl 11 (Some (lit "F 1")) FNormal [2; 3]]
  [mkColl 12 (Some (lit "H1")) CConformal [4]] [] [] [] [].
Definition five_sides : list (Z * bool) := [(1, true); (2, true)].
Lemma show_plain i : 0 <= i -> plain (show i).
Proof. intros H. apply plain_token, show_token, H. Qed.
Lemma lit_plain n : cleanb n = true -> plain n.
Proof. intros H. now apply clean_plain, cleanb_ok. Qed.
Example C147_case :
  plain_names ex_uuid five /\ unsigned_vertices five /\
  (exists text out, write_ml ex_uuid five five_sides [] = Ok text /\ read_ml ExNum text = Ok out) /\
  objects ex_uuid five = [(lit "outer_box", [1]); (lit "uuid13", [2]); (lit "F 1", [2; 3]); (lit "H1", [4]); (lit "uuid5", [5])].
Proof.
  split; [|split; [|split; [|vm_compute; reflexivity]]].
  - constructor.
    + intros n X. assert (n = lit "five") as -> by (cbn [five m_title] in X; congruence). apply lineb_ok. reflexivity.
    + intros s Hs _. cbn [five m_surfaces] in Hs. repeat (destruct Hs as [<-|Hs]; [apply lit_plain; vm_compute; reflexivity|]). destruct Hs.
    + intros c Hc. cbn [five m_bounds] in Hc. repeat (destruct Hc as [<-|Hc]; [apply lit_plain; vm_compute; reflexivity|]). destruct Hc.
    + intros c Hc. cbn [five m_faults] in Hc. repeat (destruct Hc as [<-|Hc]; [apply lit_plain; vm_compute; reflexivity|]). destruct Hc.
    + intros c Hc. cbn [five m_horizons] in Hc. repeat (destruct Hc as [<-|Hc]; [apply lit_plain; vm_compute; reflexivity|]). destruct Hc.
    + intros b [].
    + intros c n [].
  - intros s Hs. cbn [five m_surfaces] in Hs.
    repeat (destruct Hs as [<-|Hs]; [split; [repeat (apply Forall_cons; [cbv beta; lia|]); apply Forall_nil|repeat (apply Forall_cons; [repeat (apply Forall_cons; [cbn; lia|]); apply Forall_nil|]); apply Forall_nil]|]). destruct Hs.
  - destruct (written (write_ml ex_uuid five five_sides []) (fun t => match read_ml ExNum t with Ok _ => true | _ => false end)) as [t [W R]]; [vm_compute; reflexivity|].
    exists t. destruct (read_ml ExNum t) as [out| | |]; try discriminate R. exists out. split; [exact W|reflexivity].
Qed.
