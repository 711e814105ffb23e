(** * Structural model files (.lso) cut short (C139). *)
From Coq Require Import ZArith List Lia Bool Ascii String.
From Verif Require Import Base Text TextFacts GocadModel MeshModel TsModel LsoModel Spec GocadFacts TsFacts
  StreamFacts ExNum ExCheck PropsComments PropsCut LsoRead GrammarLsoFacts PropsGrammarLso.
Import ListNotations.
Local Open Scope string_scope.
Local Open Scope list_scope.
Local Open Scope Z_scope.

(** ** Specification *)

(** The last line of the text belongs to the vertices, or is a tetrahedron (at least five words) without its second line *)
Definition in_solid (a : list bytes) : Prop :=
  exists a0 l, a = a0 ++ [l] /\
    (contains l "VRTX" = true \/ starts_with l "END_VERTEX_REGION_INDICATORS" = true \/ (5 <= List.length (string_split l))%nat).
(** The beginning of a surface *)
Definition surface_part {F} (x y : LSurfR F) : Prop :=
  h_name x = h_name y /\ (exists p, h_points y = h_points x ++ p) /\ (exists t, h_tris y = h_tris x ++ t) /\ (exists u, h_uv y = h_uv x ++ u).
(** The first surfaces, the last of which may be a beginning *)
Definition surfaces_part {F} (s' s : list (LSurfR F)) : Prop :=
  exists full, s' = full /\ (exists rest, s = full ++ rest) \/
  exists x y rest, s' = full ++ [x] /\ s = full ++ y :: rest /\ surface_part x y.
(** The first horizons and faults; the last one may have less surfaces *)
Definition horizons_part (h' h : list (bytes * Z * Z)) : Prop :=
  exists full, h' = full /\ (exists rest, h = full ++ rest) \/
  exists n f e' e rest, h' = full ++ [(n, f, e')] /\ h = full ++ (n, f, e) :: rest /\ e' <= e.
(** What is left of the model: the whole solid, the first surfaces, and no block unless all the surfaces are there *)
Definition model_part {F} (m' m : LsoIn F) : Prop :=
  i_title m' = i_title m /\ i_nuv m' = i_nuv m /\
  surfaces_part (i_surfs m') (i_surfs m) /\ horizons_part (i_horizons m') (i_horizons m) /\
  (i_blocks m' = [] \/
   i_surfs m' = i_surfs m /\ i_horizons m' = i_horizons m /\ exists rest, i_blocks m = i_blocks m' ++ rest).

(** ** Proofs *)
Lemma ok_eq {A} (x y : A) : Ok x = Ok y -> x = y.
Proof. congruence. Qed.

(** The marker of the last line is not lost before the end of the file *)
Lemma nl_goto kw s x : goto_keyword kw s = Ok x -> nl (snd x) = nl s.
Proof. unfold goto_keyword, goto_if. destruct (scan _ _) as [[l r]|]; [|discriminate]. intros E. injection E as <-. reflexivity. Qed.
Lemma nl_gotos kws s x : goto_keywords kws s = Ok x -> nl (snd x) = nl s.
Proof. unfold goto_keywords. destruct (scan _ _) as [[l r]|]; [|discriminate]. intros E. injection E as <-. reflexivity. Qed.
Lemma nl_header s x : read_header s = Ok x -> nl (snd x) = nl s.
Proof.
  unfold read_header, check_keyword. destruct (pending s) as [|l r]; [discriminate|]. destruct (starts_with l "HEADER"); [|discriminate]. cbn [bind].
  intros E. apply bind_ok in E as [[n q] [_ E]]. injection E as <-. reflexivity.
Qed.
Lemma nl_crs s x : read_CRS s = Ok x -> pending (snd x) <> [] -> nl (snd x) = nl s.
Proof.
  unfold read_CRS, next_if. destruct (pending s) as [|l r] eqn:P; [intros E; injection E as <-; cbn; congruence|].
  destruct (starts_with l _); [|intros E; injection E as <-; reflexivity]. intros E. apply bind_ok in E as [[n q] [_ E]]. injection E as <-. reflexivity.
Qed.
Lemma nl_string kw n s x : kw_one_string kw n s = Ok x -> nl (snd x) = nl s.
Proof. unfold kw_one_string. intros E. apply bind_ok in E as [[l s1] [E1 E]]. apply nl_goto in E1. repeat (apply bind_ok in E as [? [_ E]]). injection E as <-. exact E1. Qed.
Lemma nl_two kw n s x : kw_two_strings kw n s = Ok x -> nl (snd x) = nl s.
Proof. unfold kw_two_strings. intros E. apply bind_ok in E as [[l s1] [E1 E]]. apply nl_goto in E1. repeat (apply bind_ok in E as [? [_ E]]). injection E as <-. exact E1. Qed.
Lemma nl_index kw n s x : kw_one_index kw n s = Ok x -> nl (snd x) = nl s.
Proof. unfold kw_one_index. intros E. apply bind_ok in E as [[l s1] [E1 E]]. apply nl_goto in E1. repeat (apply bind_ok in E as [? [_ E]]). injection E as <-. exact E1. Qed.
Lemma nl_double F kw n s x : kw_one_double F kw n s = Ok x -> nl (snd x) = nl s.
Proof. unfold kw_one_double. intros E. apply bind_ok in E as [[l s1] [E1 E]]. apply nl_goto in E1. repeat (apply bind_ok in E as [? [_ E]]). injection E as <-. exact E1. Qed.
Lemma nl_prop F p s x : read_prop_header F p s = Ok x -> pending (snd x) <> [] -> nl (snd x) = nl s.
Proof.
  unfold read_prop_header, next_if. destruct (pending s) as [|l r] eqn:P; [intros E; injection E as <-; cbn; congruence|].
  destruct (starts_with l _); [|intros E; injection E as <-; reflexivity]. cbv zeta. intros E _. apply bind_ok in E as [sl [_ E]]. destruct (Nat.eqb _ 0); [injection E as <-; reflexivity|].
  apply bind_ok in E as [nm [_ E]].
  apply bind_ok in E as [[a1 s1] [E1 E]]. apply nl_two in E1. apply bind_ok in E as [[a2 s2] [E2 E]]. apply nl_double in E2.
  apply bind_ok in E as [[a3 s3] [E3 E]]. apply nl_string in E3. apply bind_ok in E as [[a4 s4] [E4 E]]. apply nl_string in E4.
  apply bind_ok in E as [[a5 s5] [E5 E]]. apply nl_two in E5. apply bind_ok in E as [[a6 s6] [E6 E]]. apply nl_index in E6.
  apply bind_ok in E as [[a7 s7] [E7 E]]. apply nl_string in E7. injection E as <-. cbn [snd nl] in *. congruence.
Qed.
Lemma prop_cut' F p b s t : pending s = pending t ++ b -> follows b (read_prop_header F p s) (read_prop_header F p t).
Proof.
  intros H. destruct (pending t) as [|l r] eqn:E.
  - assert (K : stuck (read_prop_header F p t)) by (unfold read_prop_header; rewrite (next_stuck _ _ E); right; eauto).
    destruct K as [K|(y & s2 & K & P)]; rewrite K; destruct (read_prop_header F p s) as [[? ?]| | |]; cbn; eauto 10.
  - unfold read_prop_header, next_if. rewrite H, E. cbn [app]. destruct (starts_with l _).
    2: { apply follows_ok. rewrite H, E. reflexivity. }
    apply tight_follows, tight_same. intros sl. cbv zeta. destruct (Nat.eqb _ 0); [now apply tight_ok|].
    apply tight_same. intros names.
    apply tight_bind; [now apply two_cut|]. intros ranges r1 q1 K1.
    apply tight_bind; [now apply double_cut|]. intros ndvs r2 q2 K2.
    apply tight_bind; [now apply string_cut|]. intros classes r3 q3 K3.
    apply tight_bind; [now apply string_cut|]. intros kinds r4 q4 K4.
    apply tight_bind; [now apply two_cut|]. intros subs r5 q5 K5.
    apply tight_bind; [now apply index_cut|]. intros esizes r6 q6 K6.
    apply tight_bind; [now apply string_cut|]. intros units r7 q7 K7. now apply tight_ok.
Qed.
Lemma prop_stuck' F p s : pending s = [] -> exists y, read_prop_header F p s = Ok (y, mkStream [] false).
Proof. intros H. unfold read_prop_header. rewrite (next_stuck _ _ H). eauto. Qed.

Lemma last_in_solid q x : in_solid x -> in_solid (q ++ x).
Proof. intros (a0 & l & -> & H). exists (q ++ a0), l. split; [now rewrite app_assoc|exact H]. Qed.

Section Body.
Context (F : Num) (crs : CRS) (vprops tprops : PropHeader (num F)) (b : list bytes).

Lemma vertices_cut a : forall sv line sv1 l1 s1, lso_vertices F crs vprops sv line true (a ++ b) = Ok (sv1, l1, s1) -> contains line "VRTX" = true ->
  (exists q r2, lso_vertices F crs vprops sv line true a = Ok (sv1, l1, mkStream r2 true) /\ s1 = mkStream (r2 ++ b) true /\ a = q ++ l1 :: r2) \/
  (exists sv2, lso_vertices F crs vprops sv line true a = Ok (sv2, [], mkStream [] false) /\ in_solid (line :: a)).
Proof.
  induction a as [|l a IH]; intros sv line sv1 l1 s1 E V.
  - right. cbn [lso_vertices app] in *. destruct b as [|x y]; cbn [lso_vertices] in E; apply bind_ok in E as [sv' [E1 E]]; rewrite E1; cbn [bind]; (exists sv'; split; [reflexivity|exists [], line; auto]).
  - cbn [app lso_vertices] in *. apply bind_ok in E as [sv' [E1 E]]. rewrite E1. cbn [bind]. destruct (contains l "VRTX") eqn:C.
    + destruct (IH _ _ _ _ _ E C) as [(q & r2 & K1 & K2 & K3)|(sv2 & K1 & K2)].
      * left. exists (l :: q), r2. rewrite K3 at 2. auto.
      * right. exists sv2. split; [exact K1|]. now apply (last_in_solid [line]).
    + apply ok_eq in E. left. exists [], a. assert (sv1 = sv' /\ l1 = l /\ s1 = mkStream (a ++ b) true) as (-> & -> & ->) by (repeat split; congruence). auto.
Qed.
Lemma skip_cut kind a line l1 s1 : skip_indicators kind line (mkStream (a ++ b) true) = Ok (l1, s1) ->
  (exists q r2, skip_indicators kind line (mkStream a true) = Ok (l1, mkStream r2 true) /\ s1 = mkStream (r2 ++ b) true /\ line :: a = q ++ l1 :: r2) \/
  skip_indicators kind line (mkStream a true) = Throw ExData \/
  (skip_indicators kind line (mkStream a true) = Ok ([], mkStream [] false) /\ exists q l, a = q ++ [l] /\ starts_with l (lit "END_" ++ kind ++ lit "_REGION_INDICATORS") = true).
Proof.
  unfold skip_indicators. destruct (starts_with line _).
  2: { intros E. apply ok_eq in E. left. exists [], a. assert (l1 = line /\ s1 = mkStream (a ++ b) true) as [-> ->] by (split; congruence). auto. }
  unfold goto_keyword, goto_if. cbn [pending nl]. rewrite scan_cut. destruct (scan _ a) as [[l r]|] eqn:Sc; [|auto].
  assert (Sq : exists q, a = q ++ l :: r /\ starts_with l (lit "END_" ++ kind ++ lit "_REGION_INDICATORS") = true).
  { clear -Sc. revert Sc. induction a as [|x a IH]; cbn [scan]; [discriminate|]. destruct (starts_with x _) eqn:X; [intros Sc; injection Sc as <- <-; exists []; auto|].
    intros Sc. destruct (IH Sc) as (q & -> & H). exists (x :: q). auto. }
  destruct Sq as (q & Hq & Hl). cbn [bind]. unfold getline. cbn [pending nl]. destruct r as [|x r]; cbn [app].
  - intros _. right. right. split; [reflexivity|]. exists q, l. auto.
  - intros E. apply ok_eq in E. left. exists (line :: q ++ [l]), r. assert (l1 = x /\ s1 = mkStream (r ++ b) true) as [-> ->] by (split; congruence).
    split; [reflexivity|]. split; [reflexivity|]. rewrite Hq, <- app_comm_cons, <- app_assoc. reflexivity.
Qed.
Lemma five_words n (st : SolidT F) line line2 st' : lso_tetra F tprops n st line line2 = Ok st' -> (5 <= List.length (string_split line))%nat.
Proof.
  unfold lso_tetra. cbv zeta. intros E. apply bind_ok in E as [x1 [_ E]]. apply bind_ok in E as [x2 [_ E]]. apply bind_ok in E as [x3 [_ E]]. apply bind_ok in E as [x4 [E4 _]].
  unfold tok_index in E4. apply bind_ok in E4 as [t [E4 _]]. unfold idx in E4. destruct (nth_error _ 4) eqn:N; [|discriminate].
  assert (4 < List.length (string_split line))%nat by (apply nth_error_Some; congruence). lia.
Qed.
Lemma second_line n (st : SolidT F) line line2 st' : lso_tetra F tprops n st line line2 = Ok st' -> lso_tetra F tprops n st line [] = UB.
Proof.
  unfold lso_tetra. cbv zeta. intros E. apply bind_ok in E as [x1 [-> E]]. cbn [bind]. apply bind_ok in E as [x2 [-> E]]. cbn [bind]. apply bind_ok in E as [x3 [-> E]]. cbn [bind].
  apply bind_ok in E as [x4 [-> E]]. cbn [bind]. destruct (_ && _); [|discriminate]. apply bind_ok in E as [v [-> E]]. cbn [bind]. reflexivity.
Qed.
Lemma tetras_cut n : forall k a, (List.length a <= k)%nat -> forall st line st1 l1 s1, lso_tetras F tprops n st line true (a ++ b) = Ok (st1, l1, s1) ->
  (exists q r2, lso_tetras F tprops n st line true a = Ok (st1, l1, mkStream r2 true) /\ s1 = mkStream (r2 ++ b) true /\ a = q ++ l1 :: r2) \/
  (exists st2, lso_tetras F tprops n st line true a = Ok (st2, [], mkStream [] false)) \/
  (lso_tetras F tprops n st line true a = UB /\ in_solid (line :: a)).
Proof.
  induction k as [|k IH]; intros a L st line st1 l1 s1 E; (destruct a as [|l2 [|l a]]; cbn [List.length] in L; try lia).
  1, 2: right; right; cbn [app] in *; assert (W : exists l2 st', lso_tetra F tprops n st line l2 = Ok st') by
      (destruct b as [|x y]; cbn [lso_tetras] in E; apply bind_ok in E as [st' [E _]]; eauto);
    destruct W as (l2 & st' & W); cbn [lso_tetras]; rewrite (second_line _ _ _ _ _ W); split; [reflexivity|exists [], line; split; [reflexivity|]; right; right; exact (five_words _ _ _ _ _ W)].
  - right. left. cbn [app lso_tetras] in *. apply bind_ok in E as [st' [E1 E]]. rewrite E1. cbn [bind]. eauto.
  - cbn [app lso_tetras] in *. apply bind_ok in E as [st' [E1 E]]. rewrite E1. cbn [bind]. destruct (starts_with l "TETRA").
    + destruct (IH a ltac:(lia) _ _ _ _ _ E) as [(q & r2 & K1 & K2 & K3)|[K|(K1 & K2)]].
      * left. exists (l2 :: l :: q), r2. rewrite K3 at 2. auto.
      * auto.
      * right. right. split; [exact K1|]. now apply (last_in_solid [line; l2]).
    + apply ok_eq in E. left. exists [l2], a. assert (st1 = st' /\ l1 = l /\ s1 = mkStream (a ++ b) true) as (-> & -> & ->) by (repeat split; congruence). auto.
Qed.

(** *** Surfaces *)
Context (sv : SolidV F) (tets : list (quad * bytes)).
Definition used_part (x y : Used F) : Prop := (exists p, us_points y = us_points x ++ p) /\ (exists u, us_uv y = us_uv x ++ u).
Lemma used_refl x : used_part x x.
Proof. split; exists []; now rewrite app_nil_r. Qed.
Lemma used_trans x y z : used_part x y -> used_part y z -> used_part x z.
Proof. intros [[p A] [u B]] [[p' C] [u' D]]. split; [exists (p ++ p')|exists (u ++ u')]; rewrite app_assoc; congruence. Qed.
Lemma use_grows us v us' i : use_vertex F sv us v = Ok (us', i) -> used_part us us'.
Proof.
  unfold use_vertex. destruct (find_pos v 0 (us_seen us)); intros E.
  - apply ok_eq in E. assert (us' = us) as -> by congruence. apply used_refl.
  - apply bind_ok in E as [p [_ E]]. apply bind_ok in E as [u [_ E]]. apply ok_eq in E. injection E as <- _. split; cbn; eauto.
Qed.
Definition tri_part (x y : TriSt F) : Prop := used_part (ts_used x) (ts_used y) /\ exists t, ts_tris y = ts_tris x ++ t.
Lemma tri_refl x : tri_part x x.
Proof. split; [apply used_refl|exists []; now rewrite app_nil_r]. Qed.
Lemma tri_trans x y z : tri_part x y -> tri_part y z -> tri_part x z.
Proof. intros [A [t B]] [C [t' D]]. split; [eapply used_trans; eassumption|]. exists (t ++ t'). rewrite app_assoc. congruence. Qed.
Lemma trgl_grows k st line st' : lso_trgl F sv tets k st line = Ok st' -> tri_part st st'.
Proof.
  unfold lso_trgl. cbv zeta. intros E. apply bind_ok in E as [x [_ E]]. apply bind_ok in E as [[u1 i1] [E1 E]]. apply bind_ok in E as [y [_ E]]. apply bind_ok in E as [[u2 i2] [E2 E]].
  apply bind_ok in E as [z [_ E]]. apply bind_ok in E as [[u3 i3] [E3 E]]. apply bind_ok in E as [fs [_ E]]. injection E as <-. split; cbn [ts_used ts_tris]; [|eauto].
  apply use_grows in E1, E2, E3. eauto using used_trans.
Qed.
Lemma triangles_grow k ls : forall st line bb st1 l1 s1, lso_triangles F sv tets k st line bb ls = Ok (st1, l1, s1) -> tri_part st st1.
Proof.
  induction ls as [|l ls IH]; intros st line bb st1 l1 s1 E; cbn [lso_triangles] in E; [injection E as <- _ _; apply tri_refl|].
  destruct (starts_with l "TRGL"); [|injection E as <- _ _; apply tri_refl]. apply bind_ok in E as [st' [E1 E]]. apply trgl_grows in E1. apply IH in E. eauto using tri_trans.
Qed.
Lemma triangles_cut k a : forall st line st1 l1 s1, lso_triangles F sv tets k st line true (a ++ b) = Ok (st1, l1, s1) ->
  (exists r2, lso_triangles F sv tets k st line true a = Ok (st1, l1, mkStream r2 true) /\ s1 = mkStream (r2 ++ b) true /\ (List.length r2 < List.length a)%nat) \/
  (exists st2, lso_triangles F sv tets k st line true a = Ok (st2, [], mkStream [] false) /\ tri_part st2 st1).
Proof.
  induction a as [|l a IH]; intros st line st1 l1 s1 E.
  - right. exists st. split; [reflexivity|]. exact (triangles_grow _ _ _ _ _ _ _ _ E).
  - cbn [app lso_triangles] in *. destruct (starts_with l "TRGL").
    + apply bind_ok in E as [st' [E1 E]]. rewrite E1. cbn [bind]. destruct (IH _ _ _ _ _ E) as [(r2 & K1 & K2 & K3)|K]; [|auto]. left. exists r2. cbn [List.length]. repeat split; auto.
    + left. exists a. apply ok_eq in E. assert (st1 = st /\ l1 = l /\ s1 = mkStream (a ++ b) true) as (-> & -> & ->) by (repeat split; congruence). repeat split; auto.
Qed.
Lemma part_more (x y z : list (LSurfR F)) : surfaces_part x y -> surfaces_part x (y ++ z).
Proof.
  intros [full [[-> [rest ->]]|(u & v & rest & -> & -> & H)]].
  - exists full. left. split; [reflexivity|]. exists (rest ++ z). now rewrite app_assoc.
  - exists full. right. exists u, v, (rest ++ z). split; [reflexivity|]. split; [now rewrite <- app_assoc|exact H].
Qed.
Lemma part_refl (x : list (LSurfR F)) : surfaces_part x x.
Proof. exists x. left. split; [reflexivity|]. exists []. now rewrite app_nil_r. Qed.
Lemma tfaces_grow fuel name : forall st line s st1 l1 s1, lso_tfaces F fuel sv tets name st line s = Ok (st1, l1, s1) -> exists more, ss_surfs st1 = ss_surfs st ++ more.
Proof.
  induction fuel as [|fuel IH]; intros st line s st1 l1 s1 E; cbn [lso_tfaces] in E; [discriminate|]. destruct (starts_with line "TFACE").
  - destruct (getline line s) as [[u l2] s2]. apply bind_ok in E as [[[ts l3] s3] [_ E]]. apply IH in E as [more E]. cbn [ss_surfs] in E. eexists. rewrite E, <- app_assoc. reflexivity.
  - injection E as <- _ _. exists []. now rewrite app_nil_r.
Qed.
Lemma line_stop f name st s : lso_tfaces F (S f) sv tets name st [] s = Ok (st, [], s).
Proof. reflexivity. Qed.
Lemma tfaces_cut name : forall fuel f st line a st1 l1 s1, lso_tfaces F f sv tets name st line (mkStream (a ++ b) true) = Ok (st1, l1, s1) -> (S (List.length a) < fuel)%nat ->
  (exists r2, lso_tfaces F fuel sv tets name st line (mkStream a true) = Ok (st1, l1, mkStream r2 true) /\ s1 = mkStream (r2 ++ b) true /\ (List.length r2 <= List.length a)%nat) \/
  (exists st2 s2, lso_tfaces F fuel sv tets name st line (mkStream a true) = Ok (st2, [], s2) /\ pending s2 = [] /\ nl s2 = false /\
    surfaces_part (ss_surfs st2) (ss_surfs st1) /\ lenz (ss_surfs st2) <= lenz (ss_surfs st1)).
Proof.
  induction fuel as [|fuel IH]; intros f st line a st1 l1 s1 E L; [lia|]. destruct f as [|f]; [discriminate|]. cbn [lso_tfaces] in *.
  destruct (starts_with line "TFACE").
  2: { left. exists a. apply ok_eq in E. assert (st1 = st /\ l1 = line /\ s1 = mkStream (a ++ b) true) as (-> & -> & ->) by (repeat split; congruence). auto. }
  (* a face whose triangles stop at the end of the file *)
  assert (Stop : forall st2 ts l3 s3,
     lso_tfaces F f sv tets name (mkSurfSt (ss_surfs st ++ [mkLSurfR name (us_points (ts_used ts)) (ts_tris ts) (us_uv (ts_used ts))]) (ts_facets ts) (ts_inspect ts)) l3 s3 = Ok (st1, l1, s1) ->
     tri_part st2 ts ->
     let cutst := mkSurfSt (ss_surfs st ++ [mkLSurfR name (us_points (ts_used st2)) (ts_tris st2) (us_uv (ts_used st2))]) (ts_facets st2) (ts_inspect st2) in
     surfaces_part (ss_surfs cutst) (ss_surfs st1) /\ lenz (ss_surfs cutst) <= lenz (ss_surfs st1)).
  { intros st2 ts l3 s3 E3 [[[p H1] [u H2]] [t H3]]. apply tfaces_grow in E3 as [more E3]. cbn [ss_surfs] in *. rewrite E3. split.
    - apply part_more. exists (ss_surfs st). right. do 2 eexists. exists []. split; [reflexivity|]. split; [reflexivity|]. split; [reflexivity|]. cbn [h_points h_tris h_uv]. repeat split; eauto.
    - unfold lenz. rewrite !app_length. cbn [List.length]. lia. }
  unfold getline in *. cbn [pending nl] in *. destruct a as [|l a].
  - (* nothing after the TFACE line *)
    right. cbn [lso_triangles bind pending nl]. destruct fuel as [|fuel]; [cbn in L; lia|].
    exists (mkSurfSt (ss_surfs st ++ [mkLSurfR name [] [] []]) (ss_facets st) (ss_inspect st)), (mkStream [] false). split; [reflexivity|]. split; [reflexivity|]. split; [reflexivity|].
    cbn [app] in E. destruct b as [|x y]; apply bind_ok in E as [[[ts l3] s3] [E1 E]]; apply triangles_grow in E1; apply (Stop (mkTriSt no_vertex [] (ss_facets st) (ss_inspect st)) _ _ _ E E1).
  - cbn [app pending nl] in E. apply bind_ok in E as [[[ts l3] s3] [E1 E]]. cbn [List.length] in L. cbn [pending nl].
    destruct (triangles_cut _ _ _ _ _ _ _ E1) as [(r2 & K1 & -> & K3)|(st2 & K1 & K2)]; rewrite K1; cbn [bind].
    + destruct (IH _ _ _ r2 _ _ _ E ltac:(lia)) as [(r3 & Q1 & Q2 & Q3)|H]; [|auto]. left. exists r3. cbn [List.length]. repeat split; auto; lia.
    + right. destruct fuel as [|fuel]; [lia|]. rewrite line_stop. do 2 eexists. split; [reflexivity|]. split; [reflexivity|]. split; [reflexivity|]. apply (Stop _ _ _ _ E K2).
Qed.
Lemma surfaces_grow fuel : forall st hs line s st1 hs1 l1 s1, lso_surfaces F fuel sv tets st hs line s = Ok (st1, hs1, l1, s1) ->
  (exists more, ss_surfs st1 = ss_surfs st ++ more) /\ exists hmore, hs1 = hs ++ hmore.
Proof.
  induction fuel as [|fuel IH]; intros st hs line s st1 hs1 l1 s1 E; cbn [lso_surfaces] in E; [discriminate|]. destruct (starts_with line "SURFACE").
  - cbv zeta in E. destruct (getline line s) as [[u l2] s2]. apply bind_ok in E as [[[st' l3] s3] [E1 E]]. apply tfaces_grow in E1 as [m1 E1]. apply IH in E as [[m2 E2] [h E3]].
    split; [exists (m1 ++ m2); rewrite E2, E1, app_assoc; reflexivity|]. eexists. rewrite E3, <- app_assoc. reflexivity.
  - apply ok_eq in E. assert (st1 = st /\ hs1 = hs) as [-> ->] by (split; congruence). split; exists []; now rewrite app_nil_r.
Qed.
Lemma surfaces_cut : forall fuel f st hs line a st1 hs1 l1 s1, lso_surfaces F f sv tets st hs line (mkStream (a ++ b) true) = Ok (st1, hs1, l1, s1) -> (S (List.length a) < fuel)%nat ->
  (exists r2, lso_surfaces F fuel sv tets st hs line (mkStream a true) = Ok (st1, hs1, l1, mkStream r2 true) /\ s1 = mkStream (r2 ++ b) true /\ (List.length r2 <= List.length a)%nat) \/
  (exists st2 hs2 s2, lso_surfaces F fuel sv tets st hs line (mkStream a true) = Ok (st2, hs2, [], s2) /\
    surfaces_part (ss_surfs st2) (ss_surfs st1) /\ horizons_part hs2 hs1).
Proof.
  induction fuel as [|fuel IH]; intros f st hs line a st1 hs1 l1 s1 E L; [lia|]. destruct f as [|f]; [discriminate|]. cbn [lso_surfaces] in *.
  destruct (starts_with line "SURFACE").
  2: { left. exists a. apply ok_eq in E. assert (st1 = st /\ hs1 = hs /\ l1 = line /\ s1 = mkStream (a ++ b) true) as (-> & -> & -> & ->) by (repeat split; congruence). auto. }
  cbv zeta in *. set (name := read_name _) in *. unfold getline in *. cbn [pending nl] in *. destruct a as [|l a].
  - right. cbn [lso_tfaces bind pending]. destruct fuel as [|fuel]; [cbn in L; lia|]. cbn [lso_surfaces].
    exists st, (hs ++ [(name, lenz (ss_surfs st), lenz (ss_surfs st))]), (mkStream [] false). split; [reflexivity|].
    cbn [app] in E. assert (W : exists g st' l3 s3 l0 s0 g', lso_tfaces F g' sv tets name st l0 s0 = Ok (st', l3, s3) /\
        lso_surfaces F g sv tets st' (hs ++ [(name, lenz (ss_surfs st), lenz (ss_surfs st'))]) l3 s3 = Ok (st1, hs1, l1, s1)).
    { destruct b as [|x y]; apply bind_ok in E as [[[st' l3] s3] [E1 E]]; do 7 eexists; split; eassumption. }
    destruct W as (g & st' & l3 & s3 & l0 & s0 & g' & W1 & W2). apply tfaces_grow in W1 as [m1 W1]. apply surfaces_grow in W2 as [[m2 W2] [hm W3]]. split.
    + rewrite W2, W1. do 2 apply part_more. apply part_refl.
    + exists hs. right. do 5 eexists. split; [reflexivity|]. rewrite W3, <- app_assoc. split; [reflexivity|]. rewrite W1. unfold lenz. rewrite app_length. lia.
  - cbn [app pending nl] in E. cbn [pending nl]. apply bind_ok in E as [[[st' l3] s3] [E1 E]]. cbn [List.length] in L.
    destruct (tfaces_cut name (S (S (List.length a))) _ _ _ a _ _ _ E1 ltac:(lia)) as [(r2 & K1 & -> & K3)|(st2 & s2 & K1 & K2 & K3 & K4 & K5)]; rewrite K1; cbn [bind].
    + destruct (IH _ _ _ _ r2 _ _ _ _ E ltac:(lia)) as [(r3 & Q1 & Q2 & Q3)|H]; [|auto]. left. exists r3. cbn [List.length]. repeat split; auto; lia.
    + right. destruct fuel as [|fuel]; [lia|]. cbn [lso_surfaces]. do 3 eexists. split; [reflexivity|].
      apply surfaces_grow in E as [[m2 W2] [hm W3]]. split; [rewrite W2; now apply part_more|].
      exists hs. right. do 5 eexists. split; [reflexivity|]. rewrite W3, <- app_assoc. split; [reflexivity|]. exact K5.
Qed.
Context (st : SolidT F) (ss : SurfSt F).
Lemma blocks_cut : forall fuel f line a bs bad, lso_blocks F vprops tprops f sv st ss line (mkStream (a ++ b) true) = Ok (bs, bad) -> (S (List.length a) < fuel)%nat ->
  exists bs' bad' rest, lso_blocks F vprops tprops fuel sv st ss line (mkStream a true) = Ok (bs', bad') /\ bs = bs' ++ rest.
Proof.
  induction fuel as [|fuel IH]; intros f line a bs bad E L; [lia|]. destruct f as [|f]; [discriminate|]. cbn [lso_blocks] in *.
  destruct (starts_with line "MODEL_REGION").
  2: { exists [], false, bs. split; [reflexivity|reflexivity]. }
  apply bind_ok in E as [name [E1 E]]. rewrite E1. cbn [bind]. apply bind_ok in E as [[x bad1] [E2 E]]. rewrite E2. cbn [bind]. unfold getline in *. cbn [pending nl] in *.
  destruct a as [|l a].
  - destruct fuel as [|fuel]; [cbn in L; lia|]. cbn [lso_blocks bind]. cbn [app] in E. exists [x], (bad1 || false).
    destruct b as [|y z]; apply bind_ok in E as [[bs2 bad2] [_ E]]; apply ok_eq in E; assert (bs = x :: bs2) as -> by congruence; exists bs2; split; reflexivity.
  - cbn [app pending nl] in E. cbn [pending nl]. apply bind_ok in E as [[bs2 bad2] [E3 E]]. apply ok_eq in E. assert (bs = x :: bs2) as -> by congruence. cbn [List.length] in L.
    destruct (IH _ _ a _ _ E3 ltac:(lia)) as (bs' & bad' & rest & K & ->). rewrite K. cbn [bind]. do 3 eexists. split; [reflexivity|reflexivity].
Qed.
End Body.

Lemma first_vertex l : existsb (fun k => starts_with l k) (map lit ["VRTX"; "PVRTX"]) = true -> contains l "VRTX" = true.
Proof.
  cbn [map existsb]. rewrite orb_false_r. intros H. apply orb_prop in H as [H|H]; apply GrammarLsoFacts.starts_split in H as [r ->].
  - apply contains_prefix.
  - change (lit "PVRTX") with ("P"%char :: lit "VRTX"). cbn [app]. apply contains_skip, contains_prefix.
Qed.
Lemma gotos_first kws s l s1 : goto_keywords kws s = Ok (l, s1) -> exists q, pending s = q ++ l :: pending s1 /\ existsb (fun k => starts_with l k) kws = true.
Proof.
  unfold goto_keywords. destruct (scan _ (pending s)) as [[l0 r]|] eqn:Sc; [|discriminate]. intros E. apply ok_eq in E. assert (l0 = l /\ s1 = mkStream r (nl s)) as [-> ->] by (split; congruence).
  cbn [pending]. revert Sc. generalize (pending s). intros a. induction a as [|x a IH]; cbn [scan]; [discriminate|]. destruct (existsb (fun k => starts_with x k) kws) eqn:X.
  - intros Sc. assert (x = l /\ a = r) as [-> ->] by (split; congruence). exists []. auto.
  - intros Sc. destruct (IH Sc) as (q & -> & H). exists (x :: q). auto.
Qed.
Definition outcome {F} (a : list bytes) (m : LsoIn F) (r : res (LsoIn F)) : Prop :=
  r = Throw ExData \/ (r = UB /\ in_solid a) \/ exists m', r = Ok m' /\ model_part m' m.
Lemma outcome_app {F} q a (m : LsoIn F) r : outcome a m r -> outcome (q ++ a) m r.
Proof. intros [H|[[H K]|H]]; [left|right; left; split; [|apply last_in_solid]|right; right]; assumption. Qed.
Lemma end_tetra q l : starts_with l (lit "END_" ++ lit "VERTEX" ++ lit "_REGION_INDICATORS") = true -> in_solid (q ++ [l]).
Proof. intros H. exists q, l. split; [reflexivity|]. right. left. exact H. Qed.
Lemma horizons_nil hs : horizons_part [] hs.
Proof. exists []. left. split; [reflexivity|]. now exists hs. Qed.

Lemma body_cut F crs vprops tprops b title s t m :
  pending s = pending t ++ b -> nl s = true -> nl t = true ->
  lso_body F crs vprops tprops title s = Ok m -> outcome (pending t) m (lso_body F crs vprops tprops title t).
Proof.
  intros P Ns Nt E. unfold lso_body in *. apply bind_ok in E as [[line s1] [E1 E]].
  pose proof (gotos_cut (map lit ["VRTX"; "PVRTX"]) b s t P) as K. rewrite E1 in K. destruct K as [(t1 & K1 & P1)|K1]; rewrite K1; [|left; reflexivity]. cbn [bind].
  pose proof (nl_gotos _ _ _ E1) as N1. pose proof (nl_gotos _ _ _ K1) as M1. cbn [snd] in N1, M1. rewrite Ns in N1. rewrite Nt in M1.
  destruct (gotos_first _ _ _ _ K1) as (q & Q & V). apply first_vertex in V. rewrite Q. apply outcome_app.
  rewrite N1, P1 in E. rewrite M1. clear E1 K1 N1 M1 Q Nt Ns P P1 q. generalize (pending t1) E. clear s1 t1 E s t. intros a E.
  (* vertices *)
  apply bind_ok in E as [[[sv line2] s2] [E2 E]].
  destruct (vertices_cut F crs vprops b a _ _ _ _ _ E2 V) as [(q & a2 & K2 & -> & ->)|(sv2 & K2 & I)]; rewrite K2; cbn [bind].
  2: { right. left. split; [reflexivity|exact I]. }
  rewrite app_comm_cons. apply outcome_app. clear q V E2 K2.
  (* indicators *)
  apply bind_ok in E as [[line3 s3] [E3 E]].
  destruct (skip_cut b (lit "VERTEX") a2 line2 line3 s3 E3) as [(q & a3 & K3 & -> & ->)|[K3|[K3 (q & l & -> & Hl)]]]; rewrite K3; cbn [bind].
  2: now left.
  2: { right. left. split; [reflexivity|]. rewrite app_comm_cons. now apply end_tetra. }
  apply outcome_app. clear q E3 K3. cbn [nl pending] in *.
  (* tetrahedra *)
  apply bind_ok in E as [[[st line4] s4] [E4 E]].
  destruct (tetras_cut F tprops b _ _ a3 (le_n _) _ _ _ _ _ E4) as [(q & a4 & K4 & -> & ->)|[(st2 & K4)|(K4 & I)]]; rewrite K4; cbn [bind].
  2: { left. reflexivity. }
  2: { right. left. auto. }
  rewrite app_comm_cons. apply outcome_app. clear q E4 K4.
  apply bind_ok in E as [[line5 s5] [E5 E]].
  destruct (skip_cut b (lit "TETRA") a4 line4 line5 s5 E5) as [(q & a5 & K5 & -> & ->)|[K5|[K5 _]]]; rewrite K5; cbn [bind].
  2: now left.
  2: { left. reflexivity. }
  apply outcome_app. clear q E5 K5.
  (* the model *)
  apply bind_ok in E as [[line5' s6] [E6 E]].
  assert (W : (if starts_with line5 "MODEL" then Ok (line5, mkStream a5 true) else do '(_, s) <- goto_keyword "MODEL" (mkStream a5 true); Ok (line5, s)) = Throw ExData \/
    exists a6, s6 = mkStream (a6 ++ b) true /\
      (if starts_with line5 "MODEL" then Ok (line5, mkStream a5 true) else do '(_, s) <- goto_keyword "MODEL" (mkStream a5 true); Ok (line5, s)) = Ok (line5', mkStream a6 true)).
  { destruct (starts_with line5 "MODEL").
    - right. exists a5. apply ok_eq in E6. split; congruence.
    - unfold goto_keyword, goto_if in *. cbn [pending nl] in *. rewrite scan_cut in E6. destruct (scan _ a5) as [[l r]|]; [|now left].
      cbn [bind] in *. right. exists r. apply ok_eq in E6. split; congruence. }
  destruct W as [->|(a6 & -> & ->)]; [now left|]. cbn [bind]. clear E6. right. right.
  unfold getline in *. cbn [pending nl] in *. destruct a6 as [|line6 a6]; cbn [app] in E.
  { cbn [lso_surfaces starts_with bind lso_blocks List.length]. eexists. split; [reflexivity|].
    assert (G : exists l7 s7, (do '(ss, hs, line7, s8) <- lso_surfaces F (S (S (List.length (pending s7)))) sv (st_tets st) (mkSurfSt [] [] false) [] l7 s7;
        do '(bs, bad) <- lso_blocks F vprops tprops (S (S (List.length (pending s8)))) sv st ss line7 s8;
        Ok (mkLsoIn title (lenz (sv_map sv)) (ss_surfs ss) hs bs (ss_inspect ss || bad))) = Ok m).
    { destruct b as [|x y]; do 2 eexists; exact E. }
    clear E. destruct G as (l7 & s7 & E). apply bind_ok in E as [[[[ss hs] line7] s8] [_ E]]. apply bind_ok in E as [[bs bad] [_ E]]. apply ok_eq in E. subst m.
    repeat split; cbn [i_title i_nuv i_surfs i_horizons i_blocks]; [|apply horizons_nil|now left]. exists []. left. split; [reflexivity|]. eexists. reflexivity. }
  apply bind_ok in E as [[[[ss hs] line7] s8] [E7 E]]. apply bind_ok in E as [[bs bad] [E8 E]]. apply ok_eq in E. subst m. cbn [pending] in *.
  destruct (surfaces_cut F b sv (st_tets st) (S (S (List.length a6))) _ _ _ _ a6 _ _ _ _ E7 ltac:(lia)) as [(a8 & K7 & -> & _)|(st2 & hs2 & s9 & K7 & G1 & G2)]; rewrite K7; cbn [bind].
  - cbn [pending] in *. destruct (blocks_cut F vprops tprops b sv st ss (S (S (List.length a8))) _ _ a8 _ _ E8 ltac:(lia)) as (bs' & bad' & rest & -> & ->). cbn [bind].
    eexists. split; [reflexivity|]. repeat split; cbn [i_title i_nuv i_surfs i_horizons i_blocks]; [apply part_refl| |].
    + exists hs. left. split; [reflexivity|]. exists []. now rewrite app_nil_r.
    + right. repeat split; eauto.
  - cbn [lso_blocks starts_with bind]. eexists. split; [reflexivity|]. repeat split; cbn [i_title i_nuv i_surfs i_horizons i_blocks]; auto.
Qed.

(** ** Theorems *)

(** What becomes of a .lso file that loads when its last lines are missing: an exception; the
    lines of the solid are read outside a list of words (only when the text stops inside the
    vertices or the tetrahedra); or a part of the model is loaded. *)
Theorem C139_cut F a b m : Forall is_line (a ++ b) -> read_lso F (unlines (a ++ b)) = Ok m ->
  read_lso F (unlines a) = Throw ExData \/
  (read_lso F (unlines a) = UB /\ in_solid a) \/
  exists m', read_lso F (unlines a) = Ok m' /\ model_part m' m.
Proof.
  intros L E. assert (La : Forall is_line a) by (apply Forall_app in L; tauto).
  unfold read_lso in *. rewrite open_unlines in * by assumption. unfold goto_if in *. cbn [pending nl] in *. rewrite scan_cut in E.
  destruct (scan _ a) as [[l r]|] eqn:Sc; [|now left].
  assert (Sq : exists q, a = q ++ r).
  { clear -Sc. revert Sc. induction a as [|x a IH]; cbn [scan]; [discriminate|]. destruct (starts_with x _); intros Sc; [injection Sc as <- <-; now exists [x]|].
    destruct (IH Sc) as (q & ->). now exists (x :: q). }
  destruct Sq as (q & ->). fold (outcome (q ++ r) m (do '(title, s1) <- read_header (mkStream r true); do '(crs, s2) <- read_CRS s1; do '(vprops, s3) <- read_prop_header F [] s2;
      do '(tprops, s4) <- read_prop_header F "TETRA_" s3; lso_body F crs vprops tprops title s4)).
  apply outcome_app. clear L La Sc l q.
  apply bind_ok in E as [[title s1] [E1 E]]. pose proof (header_cut b (mkStream (r ++ b) true) (mkStream r true) eq_refl) as K1. rewrite E1 in K1.
  destruct K1 as [(t1 & K1 & P1)|K1]; rewrite K1; [|now left]. cbn [bind].
  pose proof (nl_header _ _ E1) as N1. pose proof (nl_header _ _ K1) as M1. cbn [snd nl] in N1, M1. pose proof (read_header_suffix _ _ K1) as S1. cbn [snd pending] in S1. destruct S1 as [q1 ->].
  apply outcome_app. clear E1 K1.
  assert (End : forall crs vprops t3, pending t3 = [] -> (do '(tprops, s4) <- read_prop_header F "TETRA_" t3; lso_body F crs vprops tprops title s4) = Throw ExData).
  { intros crs0 vprops0 t3 P. destruct (prop_stuck' F (lit "TETRA_") t3 P) as [y ->]. reflexivity. }
  assert (End2 : forall crs t2, pending t2 = [] -> (do '(vprops, s3) <- read_prop_header F [] t2; do '(tprops, s4) <- read_prop_header F "TETRA_" s3; lso_body F crs vprops tprops title s4) = Throw ExData).
  { intros crs0 t2 P. destruct (prop_stuck' F [] t2 P) as [y ->]. cbn [bind]. now apply End. }
  apply bind_ok in E as [[crs s2] [E2 E]]. pose proof (crs_cut b s1 t1 P1) as K2. rewrite E2 in K2.
  destruct K2 as [(t2 & K2 & P2)|[(y & t2 & K2 & P2)|K2]]; rewrite K2; cbn [bind]; [|left; now apply End2|now left].
  destruct (pending t2) as [|x2 r2] eqn:T2; [left; now apply End2|].
  assert (N2 : nl s2 = true) by (apply nl_crs in E2; cbn [snd] in *; [congruence|rewrite P2; discriminate]).
  assert (M2 : nl t2 = true) by (apply nl_crs in K2; cbn [snd] in *; [congruence|rewrite T2; discriminate]).
  rewrite <- T2 in P2. pose proof (read_CRS_suffix _ _ K2) as S2. cbn [snd] in S2. destruct S2 as [q2 ->]. apply outcome_app. clear E2 K2 T2 x2 r2.
  apply bind_ok in E as [[vprops s3] [E3 E]]. pose proof (prop_cut' F [] b s2 t2 P2) as K3. rewrite E3 in K3.
  destruct K3 as [(t3 & K3 & P3)|[(y & t3 & K3 & P3)|K3]]; rewrite K3; cbn [bind]; [|left; now apply End|now left].
  destruct (pending t3) as [|x3 r3] eqn:T3; [left; now apply End|].
  assert (N3 : nl s3 = true) by (apply nl_prop in E3; cbn [snd] in *; [congruence|rewrite P3; discriminate]).
  assert (M3 : nl t3 = true) by (apply nl_prop in K3; cbn [snd] in *; [congruence|rewrite T3; discriminate]).
  rewrite <- T3 in P3. pose proof (read_prop_header_suffix _ _ _ _ K3) as S3. cbn [snd] in S3. destruct S3 as [q3 ->]. apply outcome_app. clear E3 K3 T3 x3 r3.
  apply bind_ok in E as [[tprops s4] [E4 E]]. pose proof (prop_cut' F (lit "TETRA_") b s3 t3 P3) as K4. rewrite E4 in K4.
  destruct K4 as [(t4 & K4 & P4)|[(y & t4 & K4 & P4)|K4]]; rewrite K4; cbn [bind]; [| |now left].
  2: { left. unfold lso_body. now rewrite gotos_stuck. }
  destruct (pending t4) as [|x4 r4] eqn:T4; [left; unfold lso_body; now rewrite gotos_stuck|].
  assert (N4 : nl s4 = true) by (apply nl_prop in E4; cbn [snd] in *; [congruence|rewrite P4; discriminate]).
  assert (M4 : nl t4 = true) by (apply nl_prop in K4; cbn [snd] in *; [congruence|rewrite T4; discriminate]).
  rewrite <- T4 in P4. pose proof (read_prop_header_suffix _ _ _ _ K4) as S4. cbn [snd] in S4. destruct S4 as [q4 ->]. apply outcome_app. clear E4 K4 T4 x4 r4.
  now apply (body_cut F crs vprops tprops b title s4 t4 m).
Qed.

(** Nothing is noticed when the last lines of the surfaces or of the blocks are missing, and the
    words of an empty line are read out of the list when the text stops in the tetrahedra. *)
Definition C139_noticed : Prop :=
  forall F a b m, Forall is_line (a ++ b) -> read_lso F (unlines (a ++ b)) = Ok m ->
    read_lso F (unlines a) = Ok m \/ exists e, read_lso F (unlines a) = Throw e.
Definition whole_read (m : res (LsoIn ExNum)) : bool := match m with Ok m => (lenz (i_surfs m) =? 3) && (lenz (i_blocks m) =? 2) | _ => false end.
Definition part_read (m : res (LsoIn ExNum)) : bool := match m with Ok m => (lenz (i_surfs m) =? 2) && (lenz (i_blocks m) =? 0) | _ => false end.
(** the file without its last seven lines: the third surface and both blocks are lost *)
Definition cut_at (n : nat) : list bytes := firstn (List.length ex_lso - n) ex_lso.
Definition left_at (n : nat) : list bytes := skipn (List.length ex_lso - n) ex_lso.
Lemma cut_all n : cut_at n ++ left_at n = ex_lso.
Proof. apply firstn_skipn. Qed.
Lemma ex_lso_lines : Forall is_line ex_lso.
Proof. apply Forall_forall. intros l H. apply lineb_ok. revert l H. apply forallb_forall. vm_compute. reflexivity. Qed.
Lemma ex_lso_whole : exists m, read_lso ExNum (unlines ex_lso) = Ok m /\ lenz (i_surfs m) = 3 /\ lenz (i_blocks m) = 2.
Proof.
  assert (W : whole_read (read_lso ExNum (unlines ex_lso)) = true) by (vm_compute; reflexivity). unfold whole_read in W.
  revert W. generalize (read_lso ExNum (unlines ex_lso)). intros [m| | |] W; [|discriminate W..]. exists m. apply andb_prop in W as [A B]. apply Z.eqb_eq in A, B. auto.
Qed.
Lemma part_ok r m : part_read r = true -> r = Ok m -> lenz (i_surfs m) = 2 /\ lenz (i_blocks m) = 0.
Proof. intros P ->. cbn [part_read] in P. apply andb_prop in P as [A B]. apply Z.eqb_eq in A, B. auto. Qed.
Lemma part_not r : part_read r = true -> (forall e, r <> Throw e) /\ r <> UB.
Proof. destruct r; cbn; intros H; split; try intros e; congruence. Qed.
Theorem C139_noticed_refuted : ~ C139_noticed.
Proof.
  intros C. destruct ex_lso_whole as (m & E & A & B).
  assert (P : part_read (read_lso ExNum (unlines (cut_at 7))) = true) by (vm_compute; reflexivity).
  assert (L : Forall is_line (cut_at 7 ++ left_at 7)) by (rewrite cut_all; exact ex_lso_lines).
  assert (E' : read_lso ExNum (unlines (cut_at 7 ++ left_at 7)) = Ok m) by (rewrite cut_all; exact E).
  destruct (C ExNum (cut_at 7) (left_at 7) m L E') as [K|[e K]]; [apply (part_ok _ _ P) in K; lia|exact (proj1 (part_not _ P) e K)].
Qed.
Definition undefined (m : res (LsoIn ExNum)) : bool := match m with UB => true | _ => false end.
Theorem C139_safe_refuted : exists a b m, Forall is_line (a ++ b) /\ read_lso ExNum (unlines (a ++ b)) = Ok m /\ read_lso ExNum (unlines a) = UB.
Proof.
  destruct ex_lso_whole as (m & E & _). exists (cut_at 23), (left_at 23), m. rewrite cut_all. split; [exact ex_lso_lines|]. split; [exact E|].
  assert (U : undefined (read_lso ExNum (unlines (cut_at 23))) = true) by (vm_compute; reflexivity).
  revert U. generalize (read_lso ExNum (unlines (cut_at 23))). intros [x| | |] U; [discriminate U|discriminate U|reflexivity|discriminate U].
Qed.

Print Assumptions C139_cut.
Print Assumptions C139_noticed_refuted.
Print Assumptions C139_safe_refuted.

(** A file cut after its second surface *)
Example C139_case : exists m m', read_lso ExNum (unlines (cut_at 7 ++ left_at 7)) = Ok m /\ read_lso ExNum (unlines (cut_at 7)) = Ok m' /\ model_part m' m /\ lenz (i_surfs m') = 2.
Proof.
  destruct ex_lso_whole as (m & E & _). assert (P : part_read (read_lso ExNum (unlines (cut_at 7))) = true) by (vm_compute; reflexivity).
  assert (L : Forall is_line (cut_at 7 ++ left_at 7)) by (rewrite cut_all; exact ex_lso_lines).
  assert (E' : read_lso ExNum (unlines (cut_at 7 ++ left_at 7)) = Ok m) by (rewrite cut_all; exact E).
  destruct (C139_cut ExNum _ _ _ L E') as [K|[[K _]|(m' & K & M)]]; [destruct (proj1 (part_not _ P) _ K)|destruct (proj2 (part_not _ P) K)|].
  exists m, m'. split; [exact E'|]. split; [exact K|]. split; [exact M|]. apply (part_ok _ _ P K).
Qed.
