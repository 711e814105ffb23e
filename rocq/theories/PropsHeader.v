(** * The header of a GOCAD object (C157). *)
From Coq Require Import ZArith List Lia Bool Ascii String.
From Verif Require Import Base Text TextFacts GocadModel MeshModel TsModel Spec GocadFacts StreamFacts Grammar GrammarFacts.
From Verif Require Import WellModel VoModel SignsModel MlModel LsoModel StratiLso ExNum ExCheck PropsTsVs.
Import ListNotations.
Local Open Scope string_scope.
Local Open Scope list_scope.
Local Open Scope Z_scope.

(** ** Specification *)
(** Two texts that differ only by the header of the first object of a kind; the headers give the same name ([header_text] is in
    Grammar.v: from HEADER to the line of the closing brace, the name being in the last line that has name: ). *)
Definition other_header (kw : bytes) (text text' : bytes) : Prop :=
  exists pre first hs hs' rest name,
    pending (open_text text) = pre ++ first :: hs ++ rest /\ pending (open_text text') = pre ++ first :: hs' ++ rest /\
    nl (open_text text') = nl (open_text text) /\
    Forall (starts_not kw) pre /\ starts kw first /\ header_text hs name /\ header_text hs' name.

(** ** C157 *)
Lemma stream_eq s ls : pending s = ls -> s = mkStream ls (nl s).
Proof. destruct s; cbn. now intros ->. Qed.
Lemma header_step {A} kw text text' (f : option bytes * istream -> res A) (e : istream -> res A) : other_header kw text text' ->
  match goto_if kw (open_text text') with (None, s) => e s | (Some _, s) => bind (read_header s) f end =
  match goto_if kw (open_text text) with (None, s) => e s | (Some _, s) => bind (read_header s) f end.
Proof.
  intros (pre & first & hs & hs' & rest & name & E & E' & N & Hp & Hf & H & H').
  rewrite (stream_eq _ _ E), (stream_eq _ _ E'), N, !goto_if_hit by assumption.
  now rewrite (header_read hs name rest _ H), (header_read hs' name rest _ H').
Qed.
(** What else stands in the header, and where the name stands in it, change nothing to what is loaded, nor to how loading fails. *)
Theorem C157_header (F : Num) text text' :
  (other_header "GOCAD TSurf" text text' -> read_ts F text' = read_ts F text) /\
  (other_header "GOCAD VSet" text text' -> read_vs F text' = read_vs F text) /\
  (other_header "GOCAD PLine" text text' -> read_pl F text' = read_pl F text) /\
  (other_header "GOCAD Well" text text' -> read_wl F text' = read_wl F text) /\
  (other_header "GOCAD Voxet" text text' -> forall dist divn files folder, read_vo F dist divn files folder text' = read_vo F dist divn files folder text) /\
  (other_header "GOCAD Model3d" text text' -> read_ml F text' = read_ml F text) /\
  (other_header "GOCAD LightTSolid" text text' -> read_lso F text' = read_lso F text /\ read_strati F text' = read_strati F text).
Proof.
  set (N := (List.length (pending (open_text text)) + List.length (pending (open_text text')))%nat).
  split; [|split; [|split; [|split; [|split; [|split]]]]].
  - intros H. unfold read_ts. cbv zeta.
    rewrite (read_ts_loop_fuel F (S (List.length (pending (open_text text')))) (S N)) by (unfold N; lia).
    rewrite (read_ts_loop_fuel F (S (List.length (pending (open_text text)))) (S N)) by (unfold N; lia). cbn [read_ts_loop].
    assert (E : read_tsurf F (open_text text') = read_tsurf F (open_text text)) by (unfold read_tsurf; now apply header_step).
    now rewrite E.
  - intros H. unfold read_vs. cbv zeta.
    rewrite (read_vs_loop_fuel F (S (List.length (pending (open_text text')))) (S N)) by (unfold N; lia).
    rewrite (read_vs_loop_fuel F (S (List.length (pending (open_text text)))) (S N)) by (unfold N; lia). cbn [read_vs_loop].
    assert (E : read_vs_points F (open_text text') = read_vs_points F (open_text text)) by (unfold read_vs_points; now apply header_step).
    now rewrite E.
  - intros H. unfold read_pl. cbv zeta.
    rewrite (read_pl_loop_fuel F (S (List.length (pending (open_text text')))) (S N)) by (unfold N; lia).
    rewrite (read_pl_loop_fuel F (S (List.length (pending (open_text text)))) (S N)) by (unfold N; lia). cbn [read_pl_loop].
    assert (E : read_ecurve F (open_text text') = read_ecurve F (open_text text)) by (unfold read_ecurve; now apply header_step).
    now rewrite E.
  - intros H. unfold read_wl. now apply (header_step "GOCAD Well" text text' _ (fun _ => Throw ExData)).
  - intros H dist divn files folder. unfold read_vo. now apply (header_step "GOCAD Voxet" text text' _ (fun _ => Throw ExData)).
  - intros H. unfold read_ml. now apply (header_step "GOCAD Model3d" text text' _ (fun _ => Throw ExData)).
  - intros H. assert (E : read_lso F text' = read_lso F text) by (unfold read_lso; now apply (header_step "GOCAD LightTSolid" text text' _ (fun _ => Throw ExData))).
    split; [exact E|]. unfold read_strati. now rewrite E.
Qed.
Print Assumptions C157_header.

(** ** What does not hold *)
Definition hd_lines (header : list string) : list bytes := map lit
  (["GOCAD TSurf 1"] ++ header ++
   ["GOCAD_ORIGINAL_COORDINATE_SYSTEM"; "NAME Default"; "AXIS_NAME X Y Z"; "AXIS_UNIT m m m"; "ZPOSITIVE Depth"; "END_ORIGINAL_COORDINATE_SYSTEM";
    "PROPERTY_CLASS_HEADER Z {"; "is_z:on"; "}"; "TFACE"; "VRTX 1 0 0 5"; "VRTX 2 1 0 6"; "VRTX 3 0 1 7"; "TRGL 1 2 3"; "END"])%list.
(** The header on one line: everything up to the next closing brace is taken for the header.  The name and the coordinate system are lost
    and the depths are loaded as elevations, without any notice. *)
Theorem C157_one_line_refuted : exists header one_line,
  header = ["HEADER {"; "name:s"; "}"]%string /\ one_line = ["HEADER {name:s}"]%string /\
  mesh_is zzz_eqb (read_ts ExNum (unlines (hd_lines header))) (Some (lit "s")) [(0, 0, -5); (1, 0, -6); (0, 1, -7)] [(0, 1, 2)] [] = true /\
  mesh_is zzz_eqb (read_ts ExNum (unlines (hd_lines one_line))) None [(0, 0, 5); (1, 0, 6); (0, 1, 7)] [(0, 1, 2)] [] = true.
Proof. do 2 eexists. split; [reflexivity|]. split; [reflexivity|]. split; vm_compute; reflexivity. Qed.
Print Assumptions C157_one_line_refuted.
(** The closing brace after blanks: the same. *)
Theorem C157_indented_brace_refuted : exists header indented,
  header = ["HEADER {"; "name:s"; "}"]%string /\ indented = ["HEADER {"; "name:s"; "  }"]%string /\
  mesh_is zzz_eqb (read_ts ExNum (unlines (hd_lines header))) (Some (lit "s")) [(0, 0, -5); (1, 0, -6); (0, 1, -7)] [(0, 1, 2)] [] = true /\
  mesh_is zzz_eqb (read_ts ExNum (unlines (hd_lines indented))) (Some (lit "s")) [(0, 0, 5); (1, 0, 6); (0, 1, 7)] [(0, 1, 2)] [] = true.
Proof. do 2 eexists. split; [reflexivity|]. split; [reflexivity|]. split; vm_compute; reflexivity. Qed.
Print Assumptions C157_indented_brace_refuted.
(** Another entry whose key ends with name: replaces the name. *)
Theorem C157_other_key_refuted : exists header,
  header = ["HEADER {"; "name:s"; "*painted*variable_name:porosity"; "}"]%string /\
  mesh_is zzz_eqb (read_ts ExNum (unlines (hd_lines header))) (Some (lit "porosity")) [(0, 0, -5); (1, 0, -6); (0, 1, -7)] [(0, 1, 2)] [] = true.
Proof. eexists. split; [reflexivity|]. vm_compute. reflexivity. Qed.
Print Assumptions C157_other_key_refuted.

(** ** Instance *)
Example C157_case :
  let text := unlines (hd_lines ["HEADER {"; "name:s"; "}"]) in
  let text' := unlines (hd_lines ["HEADER {"; "*solid*color:#ffffff"; "ivolmap:false"; "name:   s "; "mesh:on"; "}"]) in
  other_header "GOCAD TSurf" text text' /\ text <> text' /\
  mesh_is zzz_eqb (read_ts ExNum text') (Some (lit "s")) [(0, 0, -5); (1, 0, -6); (0, 1, -7)] [(0, 1, 2)] [] = true.
Proof.
  cbv zeta. split; [|split].
  - exists [], (lit "GOCAD TSurf 1"), (map lit ["HEADER {"; "name:s"; "}"]), (map lit ["HEADER {"; "*solid*color:#ffffff"; "ivolmap:false"; "name:   s "; "mesh:on"; "}"]),
      (skipn 4 (hd_lines ["HEADER {"; "name:s"; "}"])), (Some (lit "s")).
    rewrite !open_unlines by (unfold hd_lines; cbn [map app]; repeat (apply Forall_cons; [apply lineb_ok; vm_compute; reflexivity|]); constructor).
    split; [reflexivity|]. split; [reflexivity|]. split; [reflexivity|]. split; [constructor|]. split; [reflexivity|]. split.
    + exists (lit "HEADER {"), [lit "name:s"], (lit "}"). split; [reflexivity|]. split; [reflexivity|]. split; [repeat constructor|]. split; [reflexivity|].
      right. exists [], (lit "name:s"), [], (lit "s"). repeat split; constructor.
    + exists (lit "HEADER {"), (map lit ["*solid*color:#ffffff"; "ivolmap:false"; "name:   s "; "mesh:on"]), (lit "}"). split; [reflexivity|]. split; [reflexivity|].
      split; [repeat constructor|]. split; [reflexivity|]. right. exists (map lit ["*solid*color:#ffffff"; "ivolmap:false"]), (lit "name:   s "), [lit "mesh:on"], (lit "   s ").
      repeat split; repeat constructor.
  - intros E. apply beq_eq in E. vm_compute in E. discriminate.
  - vm_compute. reflexivity.
Qed.
