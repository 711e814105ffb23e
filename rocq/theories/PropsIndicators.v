(** * The region indicators of a GOCAD solid (C163). *)
From Coq Require Import ZArith List Lia Bool Ascii String.
From Verif Require Import Base Text TextFacts GocadModel MeshModel TsModel LsoModel StratiLso Spec GocadFacts StreamFacts Grammar GrammarFacts GrammarLso GrammarLsoFacts DepthFacts PropsPropsOnly PropsDataLines.
From Verif Require Import ExNum ExCheck PropsTsVs.
Import ListNotations.
Local Open Scope string_scope.
Local Open Scope list_scope.
Local Open Scope Z_scope.

(** ** Specification *)
(** The lines of the tetrahedra after the first one: the line that follows it, then each tetrahedron with the line that follows it. *)
Inductive more_tetrahedra : list bytes -> Prop :=
| tetra_last l2 : more_tetrahedra [l2]
| tetra_more l2 l ls : starts "TETRA" l -> more_tetrahedra ls -> more_tetrahedra (l2 :: l :: ls).
(** The next line is not read as a vertex. *)
Definition no_vertex_next (ls : list bytes) : Prop := match ls with l :: _ => contains l "VRTX" = false | [] => True end.
(** Two texts of a solid that only differ by the indicators of the vertices [v], [v'] and of the tetrahedra [w], [w']; each of them may be absent. *)
Definition other_indicators (F : Num) (text text' : bytes) : Prop :=
  exists a pa c pc mid k vs v v' t ts w w' x rest,
    same_start "GOCAD LightTSolid" text text' (a ++ c ++ mid ++ k :: vs ++ v ++ t :: ts ++ w ++ x :: rest) (a ++ c ++ mid ++ k :: vs ++ v' ++ t :: ts ++ w' ++ x :: rest) /\
    prefixed_properties F [] a pa /\ (a = [] -> not_next "PROPERTIES" ((c ++ mid) ++ [k])) /\
    prefixed_properties F "TETRA_" c pc /\ (c = [] -> not_next "TETRA_PROPERTIES" (mid ++ [k])) /\
    Forall (fun l => starts_not "VRTX" l /\ starts_not "PVRTX" l) mid /\ (starts "VRTX" k \/ starts "PVRTX" k) /\ Forall (fun l => contains l "VRTX" = true) vs /\
    indicators "VERTEX" v /\ indicators "VERTEX" v' /\ no_vertex_next v /\ no_vertex_next v' /\ no_vertex_next [t] /\ starts_not "BEGIN_VERTEX_REGION_INDICATORS" t /\
    more_tetrahedra ts /\ indicators "TETRA" w /\ indicators "TETRA" w' /\ starts_not "TETRA" x /\ starts_not "BEGIN_TETRA_REGION_INDICATORS" x.

(** ** Facts *)
Section Facts.
Context {F : Num} (crs : CRS) (h : PropHeader (num F)).
Lemma vertices_until vs : Forall (fun l => contains l "VRTX" = true) vs -> forall k sv, exists g, forall b x r, contains x "VRTX" = false ->
  lso_vertices F crs h sv k b (vs ++ x :: r) = do s <- g; Ok (s, x, mkStream r b).
Proof.
  induction 1 as [|l vs Hl _ IH]; intros k sv.
  - exists (lso_vertex F crs h sv k). intros b x r N. cbn [app lso_vertices]. apply bind_congr. intros s. now rewrite N.
  - destruct (lso_vertex F crs h sv k) as [s|e| |] eqn:E.
    + destruct (IH l s) as [g G]. exists g. intros b x r N. cbn [app lso_vertices]. rewrite E. cbn [bind]. rewrite Hl. now apply G.
    + exists (Throw e). intros b x r N. cbn [app lso_vertices]. now rewrite E.
    + exists UB. intros b x r N. cbn [app lso_vertices]. now rewrite E.
    + exists Hang. intros b x r N. cbn [app lso_vertices]. now rewrite E.
Qed.
Lemma tetras_until ts : more_tetrahedra ts -> forall n t st, exists g, forall b x r, starts_not "TETRA" x ->
  lso_tetras F h n st t b (ts ++ x :: r) = do s <- g; Ok (s, x, mkStream r b).
Proof.
  induction 1 as [l2|l2 l ls Hl _ IH]; intros n t st.
  - exists (lso_tetra F h n st t l2). intros b x r N. cbn [app lso_tetras]. apply bind_congr. intros s. unfold starts_not in N. now rewrite N.
  - unfold starts in Hl. destruct (lso_tetra F h n st t l2) as [s|e| |] eqn:E.
    + destruct (IH n l s) as [g G]. exists g. intros b x r N. cbn [app lso_tetras]. rewrite E. cbn [bind]. rewrite Hl. now apply G.
    + exists (Throw e). intros b x r N. cbn [app lso_tetras]. now rewrite E.
    + exists UB. intros b x r N. cbn [app lso_tetras]. now rewrite E.
    + exists Hang. intros b x r N. cbn [app lso_tetras]. now rewrite E.
Qed.
End Facts.
Lemma begin_not_tetra l : starts "BEGIN_TETRA_REGION_INDICATORS" l -> starts_not "TETRA" l.
Proof.
  unfold starts, starts_not. destruct l as [|[b0 b1 b2 b3 b4 b5 b6 b7] l]; [discriminate|]. destruct b1; [|destruct b0; discriminate]. intros _. destruct b0; reflexivity.
Qed.
(** The body of the file, for given declarations. *)
Lemma body_indicators (F : Num) crs (h g : PropHeader (num F)) title mid k vs v v' t ts w w' x rest n :
  Forall (fun l => starts_not "VRTX" l /\ starts_not "PVRTX" l) mid -> (starts "VRTX" k \/ starts "PVRTX" k) -> Forall (fun l => contains l "VRTX" = true) vs ->
  indicators "VERTEX" v -> indicators "VERTEX" v' -> no_vertex_next v -> no_vertex_next v' -> no_vertex_next [t] -> starts_not "BEGIN_VERTEX_REGION_INDICATORS" t ->
  more_tetrahedra ts -> indicators "TETRA" w -> indicators "TETRA" w' -> starts_not "TETRA" x -> starts_not "BEGIN_TETRA_REGION_INDICATORS" x ->
  lso_body F crs h g title (mkStream (mid ++ k :: vs ++ v' ++ t :: ts ++ w' ++ x :: rest) n) = lso_body F crs h g title (mkStream (mid ++ k :: vs ++ v ++ t :: ts ++ w ++ x :: rest) n).
Proof.
  intros M K V Iv Iv' N1 N2 Ntv Nt T Iw Iw' Nx Nb.
  assert (HM : Forall (fun x => existsb (starts_with x) [lit "VRTX"; lit "PVRTX"] = false) mid).
  { eapply Forall_impl; [|exact M]. intros y [H1 H2]. unfold starts_not in *. cbn [existsb]. now rewrite H1, H2. }
  assert (HK : existsb (starts_with k) [lit "VRTX"; lit "PVRTX"] = true).
  { destruct K as [H|H]; unfold starts in H; cbn [existsb]; rewrite H; [reflexivity|apply orb_true_r]. }
  assert (FV : forall u r, indicators "VERTEX" u -> no_vertex_next u -> exists l0 s0, u ++ t :: r = l0 :: s0 /\ contains l0 "VRTX" = false /\
    skip_indicators "VERTEX" l0 (mkStream s0 n) = Ok (t, mkStream r n)).
  { intros u r I N. destruct (indicators_read "VERTEX" u t r n I (or_introl Nt)) as (l0 & s0 & E & H). exists l0, s0. split; [exact E|]. split; [|exact H].
    destruct u as [|y u]; injection E as <- _; [exact Ntv|exact N]. }
  assert (FT : forall u r, indicators "TETRA" u -> exists l0 s0, u ++ x :: r = l0 :: s0 /\ starts_not "TETRA" l0 /\
    skip_indicators "TETRA" l0 (mkStream s0 n) = Ok (x, mkStream r n)).
  { intros u r I. destruct (indicators_read "TETRA" u x r n I (or_introl Nb)) as (l0 & s0 & E & H). exists l0, s0. split; [exact E|]. split; [|exact H].
    destruct I as [->|(f & i & q & -> & B & _)]; injection E as <- _; [exact Nx|now apply begin_not_tetra]. }
  unfold lso_body. cbn [map]. rewrite !(TsFacts.goto_keywords_hit _ mid k _ n HM HK). cbn [bind pending nl].
  destruct (vertices_until crs h vs V k (mkSolidV [] [] [] (map (fun _ => []) (p_names h)))) as [gv GV].
  destruct (FV v (ts ++ w ++ x :: rest) Iv N1) as (l0 & s0 & E & C0 & S0). destruct (FV v' (ts ++ w' ++ x :: rest) Iv' N2) as (l1 & s1 & E' & C1 & S1).
  rewrite E, E', (GV n l0 s0 C0), (GV n l1 s1 C1), !bind_assoc. apply bind_congr. intros sv. cbn [bind]. rewrite S0, S1. cbn [bind pending nl].
  destruct (tetras_until g ts T (lenz (sv_points sv)) t (mkSolidT [] (map (fun _ => []) (p_names g)))) as [gt GT].
  destruct (FT w rest Iw) as (l2 & s2 & E2 & C2 & S2). destruct (FT w' rest Iw') as (l3 & s3 & E3 & C3 & S3).
  rewrite E2, E3, (GT n l2 s2 C2), (GT n l3 s3 C3), !bind_assoc. apply bind_congr. intros st. cbn [bind]. now rewrite S2, S3.
Qed.

(** ** C163 *)
(** For any outcome: the indicators, there or not, change nothing to what is loaded, as a structural or as a stratigraphic model. *)
Theorem C163_indicators (F : Num) text text' : other_indicators F text text' -> read_lso F text' = read_lso F text /\ read_strati F text' = read_strati F text.
Proof.
  intros H. assert (R : read_lso F text' = read_lso F text); [|split; [exact R|unfold read_strati; now rewrite R]]. revert H.
  intros (a & pa & c & pc & mid & k & vs & v & v' & t & ts & w & w' & x & rest & S1 & P & Np & P2 & Np2 & M & K & V & Iv & Iv' & N1 & N2 & Ntv & Nt & T & Iw & Iw' & Nx & Nb).
  assert (AN : forall (a c : list bytes) mid k r, a ++ c ++ mid ++ k :: r <> []) by (intros [|? ?] [|? ?] [|? ?] ? ?; discriminate).
  destruct (start_step _ _ _ _ _ S1 (AN _ _ _ _ _) (AN _ _ _ _ _)) as (first & name & cr & s & s' & u & u' & n & G & G' & Eh & Eh' & Ec & Ec').
  assert (D1 : both_declare F [] a a (c ++ mid ++ k :: vs ++ v ++ t :: ts ++ w ++ x :: rest) (c ++ mid ++ k :: vs ++ v' ++ t :: ts ++ w' ++ x :: rest)).
  { exists pa. repeat split; try assumption; try (intros e; rewrite app_assoc; apply not_next_cons; now apply Np); apply (AN []). }
  assert (D2 : both_declare F "TETRA_" c c (mid ++ k :: vs ++ v ++ t :: ts ++ w ++ x :: rest) (mid ++ k :: vs ++ v' ++ t :: ts ++ w' ++ x :: rest)).
  { exists pc. repeat split; try assumption; try (intros e; apply not_next_cons; now apply Np2); apply (AN [] []). }
  destruct (declare_step [] a a _ _ n D1) as (h & h' & Ep & Ep' & Es). destruct (declare_step "TETRA_" c c _ _ n D2) as (g & g' & Eq & Eq' & Et).
  unfold read_lso. rewrite G, G', Eh, Eh'. cbn [bind]. rewrite Ec, Ec'. cbn [bind]. rewrite Ep, Ep'. cbn [bind]. rewrite Eq, Eq'. cbn [bind].
  rewrite <- (lso_body_strip cr h'), <- (lso_body_strip cr h), Es, Et. now apply body_indicators.
Qed.
Print Assumptions C163_indicators.

(** ** What does not hold *)
Definition in_solid_text (v w : list string) : bytes := unlines (map lit
  (["GOCAD LightTSolid 1"; "HEADER {"; "name:s"; "}"; "VRTX 1 0 0 0"; "VRTX 2 1 0 0"; "VRTX 3 0 1 0"; "VRTX 4 0 0 5"] ++ v ++
   ["TETRA 1 2 3 4"; "# CTETRA low a b c d"] ++ w ++ ["MODEL"; "SURFACE sides"; "TFACE 1"; "KEYVERTICES 1 2 3"; "TRGL 1 2 3"; "MODEL_REGION low +1"; "END"])%list).
Definition in_loaded (r : res (LsoIn ExNum)) : option (list (bytes * list (Z * Z * Z) * list quad)) :=
  match r with Ok m => Some (map (fun b => (r_name b, r_points b, r_tets b)) (i_blocks m)) | _ => None end.
(** Only one section of each kind: with a second section on the vertices, its first line is read as a tetrahedron, out of its words. *)
Theorem C163_twice_refuted : let v := ["BEGIN_VERTEX_REGION_INDICATORS"; "r 1"; "END_VERTEX_REGION_INDICATORS"]%string in
  (exists m, read_lso ExNum (in_solid_text v []) = Ok m) /\ read_lso ExNum (in_solid_text (v ++ v)%list []) = UB.
Proof.
  cbv zeta. split; [|vm_compute; reflexivity].
  assert (E : match read_lso ExNum (in_solid_text ["BEGIN_VERTEX_REGION_INDICATORS"; "r 1"; "END_VERTEX_REGION_INDICATORS"] []) with Ok _ => true | _ => false end = true) by (vm_compute; reflexivity).
  revert E. generalize (read_lso ExNum (in_solid_text ["BEGIN_VERTEX_REGION_INDICATORS"; "r 1"; "END_VERTEX_REGION_INDICATORS"] [])). intros [m|e| |] E; try discriminate E. now exists m.
Qed.
Print Assumptions C163_twice_refuted.

(** ** Instance: a solid without indicators, then with both sections. *)
Example C163_case : let v := ["BEGIN_VERTEX_REGION_INDICATORS"; "VRTX of region 1"; "END_VERTEX_REGION_INDICATORS"]%string in
  let w := ["BEGIN_TETRA_REGION_INDICATORS"; "TETRA 9 9 9 9"; "END_TETRA_REGION_INDICATORS"]%string in
  other_indicators ExNum (in_solid_text [] []) (in_solid_text v w) /\
  in_loaded (read_lso ExNum (in_solid_text v w)) = Some [(lit "low", [(0, 0, 0); (1, 0, 0); (0, 1, 0); (0, 0, 5)], [(0, 1, 2, 3)])].
Proof.
  cbv zeta. split; [|vm_compute; reflexivity].
  exists [], [], [], [], [], (lit "VRTX 1 0 0 0"), (map lit ["VRTX 2 1 0 0"; "VRTX 3 0 1 0"; "VRTX 4 0 0 5"]), [],
    (map lit ["BEGIN_VERTEX_REGION_INDICATORS"; "VRTX of region 1"; "END_VERTEX_REGION_INDICATORS"]), (lit "TETRA 1 2 3 4"), [lit "# CTETRA low a b c d"], [],
    (map lit ["BEGIN_TETRA_REGION_INDICATORS"; "TETRA 9 9 9 9"; "END_TETRA_REGION_INDICATORS"]), (lit "MODEL"),
    (map lit ["SURFACE sides"; "TFACE 1"; "KEYVERTICES 1 2 3"; "TRGL 1 2 3"; "MODEL_REGION low +1"; "END"]).
  split.
  { exists [], (lit "GOCAD LightTSolid 1"), (map lit ["HEADER {"; "name:s"; "}"]), [], (Some (lit "s")), true.
    unfold in_solid_text. rewrite !open_unlines by (cbn [map app]; repeat (apply Forall_cons; [apply lineb_ok; vm_compute; reflexivity|]); constructor).
    split; [reflexivity|]. split; [reflexivity|]. split; [reflexivity|]. split; [constructor|]. split; [reflexivity|].
    split; [|split; [left; now split|intros _; split; vm_compute; reflexivity]].
    exists (lit "HEADER {"), [lit "name:s"], (lit "}"). split; [reflexivity|]. split; [reflexivity|]. split; [repeat constructor|]. split; [reflexivity|].
    right. exists [], (lit "name:s"), [], (lit "s"). repeat split; constructor. }
  split; [left; now split|]. split; [reflexivity|]. split; [left; now split|]. split; [reflexivity|]. split; [constructor|]. split; [left; reflexivity|].
  split; [repeat constructor|]. split; [now left|]. split.
  { right. exists (lit "BEGIN_VERTEX_REGION_INDICATORS"), [lit "VRTX of region 1"], (lit "END_VERTEX_REGION_INDICATORS"). repeat split. repeat constructor. }
  split; [exact I|]. split; [reflexivity|]. split; [reflexivity|]. split; [reflexivity|]. split; [constructor|]. split; [now left|]. split.
  { right. exists (lit "BEGIN_TETRA_REGION_INDICATORS"), [lit "TETRA 9 9 9 9"], (lit "END_TETRA_REGION_INDICATORS"). repeat split. repeat constructor. }
  split; reflexivity.
Qed.
