(** * Specification of the GOCAD structural models (.ml), whoever wrote them.

    What the lines of a file say, independently of the reader: the components, then one TSurf object per TSURF component,
    whose TFACE sections are the surfaces. *)
From Coq Require Import ZArith List Lia Bool Ascii String.
From Verif Require Import Base Text Spec GocadModel MeshModel TsModel MlModel Grammar.
Import ListNotations.
Local Open Scope string_scope.
Local Open Scope list_scope.
Local Open Scope Z_scope.

(** ** The components *)
Inductive component :=
| Tsurf (name : bytes)
| Tface (feature name : bytes)
| Region (name : bytes) (ids : list Z)
| Layer (name : bytes) (ids : list Z)
| Fault_block (name : bytes) (ids : list Z).

(** The name made of some words: without quotes. *)
Definition named (ws : list bytes) (n : bytes) : Prop := n = filter (fun c => negb (Ascii.eqb c QUOTE)) (join ws).
Definition integer (t : bytes) (n : Z) : Prop := string_to_int t = Ok n.
(** Numbers on any number of lines, up to the first 0. *)
Definition ids_text (denotes : bytes -> Z -> Prop) (ls : list bytes) (ns : list Z) : Prop :=
  exists before last texts zero more parts part, ls = before ++ [last] /\
    Forall2 (fun l p => Forall2 denotes (string_split l) p) before parts /\
    string_split last = texts ++ zero :: more /\ Forall2 denotes texts part /\ denotes zero 0 /\
    ns = List.concat parts ++ part /\ Forall (fun n => n <> 0) ns.
Definition component_text (ls : list bytes) (c : component) : Prop :=
  match c with
  | Tsurf n => exists l ws, ls = [l] /\ string_split l = lit "TSURF" :: ws /\ named ws n
  | Tface f n => exists l w ws, ls = [l] /\ string_split l = lit "TFACE" :: w :: f :: ws /\ named ws n
  | Region n ids => exists l w ws li, ls = l :: li /\ string_split l = lit "REGION" :: w :: ws /\ named ws n /\ ids_text integer li ids
  | Layer n ids => exists l ws li, ls = l :: li /\ string_split l = lit "LAYER" :: ws /\ named ws n /\ ids_text number li ids
  | Fault_block n ids => exists l ws li, ls = l :: li /\ string_split l = lit "FAULT_BLOCK" :: ws /\ named ws n /\ ids_text number li ids
  end.
(** The components and any other lines (the key vertices of the faces, comments). *)
Inductive components_text : list bytes -> list component -> Prop :=
| ct_nil : components_text [] []
| ct_component a b c cs : component_text a c -> not_next "END" a -> components_text b cs -> components_text (a ++ b) (c :: cs)
| ct_other l b cs : other_line [lit "TSURF"; lit "TFACE"; lit "REGION"; lit "LAYER"; lit "FAULT_BLOCK"] l -> starts_not "END" l ->
    components_text b cs -> components_text (l :: b) cs.

Definition tsurfs (cs : list component) : list bytes := flat_map (fun c => match c with Tsurf n => [n] | _ => [] end) cs.
(** Feature and name of each TFACE: the surfaces, numbered from 0 in the model and from 1 in the file. *)
Definition faces (cs : list component) : list (bytes * bytes) := flat_map (fun c => match c with Tface f n => [(f, n)] | _ => [] end) cs.
(** The numbers of the region Universe; the other regions are the blocks. *)
Definition universe (cs : list component) : list Z :=
  flat_map (fun c => match c with Region n ids => if beq n "Universe" then ids else [] | _ => [] end) cs.
Definition regions (cs : list component) : list (bytes * list Z) :=
  flat_map (fun c => match c with Region n ids => if beq n "Universe" then [] else [(n, ids)] | _ => [] end) cs.
Definition layers (cs : list component) : list (bytes * list Z) := flat_map (fun c => match c with Layer n ids => [(n, ids)] | _ => [] end) cs.
Definition fault_blocks (cs : list component) : list (bytes * list Z) :=
  flat_map (fun c => match c with Fault_block n ids => [(n, ids)] | _ => [] end) cs.

(** How many times surface number [k] is in a list, on any side. *)
Definition times (k : Z) (ids : list Z) : nat := List.length (filter (fun i => Z.abs i =? k) ids).
(** The kinds of geological objects. *)
Definition features : list (bytes * kind_in) :=
  [(lit "fault", KFault FNoType); (lit "reverse_fault", KFault FReverse); (lit "normal_fault", KFault FNormal);
   (lit "boundary", KBoundary); (lit "lease", KBoundary);
   (lit "top", KHorizon CConformal); (lit "none", KHorizon CConformal); (lit "topographic", KHorizon CTopography);
   (lit "intrusive", KHorizon CIntrusion); (lit "unconformity", KHorizon CDiscontinuity)].
(** References are to components declared before; the number of the universe follows those of the surfaces, then come those of
    the blocks. *)
Record consistent (cs : list component) : Prop := {
  co_names : NoDup (tsurfs cs);
  co_faces : forall a f n b, cs = a ++ Tface f n :: b -> In n (tsurfs a);
  co_features : forall f g n, In (f, n) (faces cs) -> In (g, n) (faces cs) -> f = g;
  co_known : forall n, In n (tsurfs cs) -> exists f k, In (f, n) (faces cs) /\ In (f, k) features;
  co_regions : forall a n ids b, cs = a ++ Region n ids :: b ->
    Forall (fun i => 1 <= Z.abs i <= lenz (faces a)) ids /\
    (n <> lit "Universe" -> (2 <= List.length ids)%nat /\ forall k, (times k ids <= 2)%nat);
  co_units : forall a n ids b, cs = a ++ Layer n ids :: b \/ cs = a ++ Fault_block n ids :: b -> faces b = [] /\
    Forall (fun i => lenz (faces cs) + 1 <= i <= lenz (faces cs) + 1 + lenz (regions a)) ids
}.

(** ** The meshes *)
(** The vertices and the triangles of a TFACE section. *)
Record section (F : Num) := mkSection { sn_vertices : list (vertex F); sn_triangles : list (Z * Z * Z) }.
Arguments mkSection {F}. Arguments sn_vertices {F}. Arguments sn_triangles {F}.
Definition section_vertices {F} (ss : list (section F)) : list (vertex F) := flat_map sn_vertices ss.
(** [sheet_data up ps ls ss]: the lines after the first TFACE line declare the sections [ss]; the vertices are numbered
    consecutively throughout the object. *)
Inductive sheet_data (F : Num) (up : bool) (ps : list (property F)) : list bytes -> list (section F) -> Prop :=
| hd_nil : sheet_data F up ps [] [mkSection [] []]
| hd_vertex ls ss vs ts l v : sheet_data F up ps ls (ss ++ [mkSection vs ts]) -> vertex_line F up ps l v ->
    next_number (section_vertices ss ++ vs) (vx_number v) -> sheet_data F up ps (ls ++ [l]) (ss ++ [mkSection (vs ++ [v]) ts])
| hd_atom ls ss vs ts l o w v : sheet_data F up ps ls (ss ++ [mkSection vs ts]) -> atom_line F ps l o v ->
    next_number (section_vertices ss ++ vs) (vx_number v) -> In w (section_vertices ss ++ vs) -> vx_number w = o -> vx_point v = vx_point w ->
    sheet_data F up ps (ls ++ [l]) (ss ++ [mkSection (vs ++ [v]) ts])
| hd_triangle ls ss vs ts l t : sheet_data F up ps ls (ss ++ [mkSection vs ts]) -> trgl_words l t -> section_vertices ss ++ vs <> [] ->
    sheet_data F up ps (ls ++ [l]) (ss ++ [mkSection vs (ts ++ [t])])
| hd_section ls ss l more : sheet_data F up ps ls ss -> string_split l = lit "TFACE" :: more ->
    sheet_data F up ps (ls ++ [l]) (ss ++ [mkSection [] []])
| hd_stone ls ss l : sheet_data F up ps ls ss -> stone_words l -> sheet_data F up ps (ls ++ [l]) ss
| hd_other ls ss l : sheet_data F up ps ls ss ->
    other_line [lit "VRTX"; lit "PVRTX"; lit "ATOM"; lit "PATOM"; lit "TRGL"; lit "BSTONE"; lit "BORDER"; lit "TFACE"; lit "END"] l ->
    sheet_data F up ps (ls ++ [l]) ss.
(** The triangles of a section join vertices of this section. *)
Definition closed_section {F} (s : section F) : Prop :=
  Forall (fun t => declared (sn_vertices s) (fst (fst t)) /\ declared (sn_vertices s) (snd (fst t)) /\ declared (sn_vertices s) (snd t)) (sn_triangles s).
(** A TSurf object: its name and its sections. *)
Record sheet (F : Num) := mkSheet { sh_name : option bytes; sh_sections : list (section F) }.
Arguments mkSheet {F}. Arguments sh_name {F}. Arguments sh_sections {F}.
Definition sheet_text (F : Num) (ls : list bytes) (s : sheet F) (rest : list bytes) : Prop :=
  exists up ps between tface data last,
    object_with_properties F "GOCAD TSurf" ls (sh_name s) up ps (between ++ tface :: data ++ last :: rest) /\
    Forall (starts_not "TFACE") between /\ starts "TFACE" tface /\ sheet_data F up ps data (sh_sections s) /\ end_line last /\
    Forall (fun p => 0 <= pr_size p < 256) ps /\ Forall closed_section (sh_sections s).
Fixpoint sheets_text (F : Num) (ls : list bytes) (ss : list (sheet F)) : Prop :=
  match ss with
  | [] => True
  | s :: r => exists rest, sheet_text F ls s rest /\ sheets_text F rest r
  end.

(** ** The file *)
Definition ml_says (F : Num) (ls : list bytes) (title : option bytes) (cs : list component) (ss : list (sheet F)) : Prop :=
  exists up cl last rest, object_text "GOCAD Model3d" ls title up (cl ++ last :: rest) /\
    components_text cl cs /\ starts "END" last /\ sheets_text F rest ss.

(** ** The model *)
(** The surfaces of a TSURF. *)
Definition positions (cs : list component) (n : bytes) : list Z :=
  map fst (filter (fun e => beq (snd (snd e)) n) (combine (rangez 0 (List.length (faces cs))) (faces cs))).
Definition collection_is (cs : list component) (n : bytes) (c : CollIn) : Prop :=
  ci_name c = n /\ ci_surfaces c = positions cs n /\ exists f, In (f, n) (faces cs) /\ In (f, ci_kind c) features.
(** The surfaces of model boundaries that are not around the universe are put together in one more model boundary. *)
Definition boundary_away (cs : list component) (s : Z) : Prop :=
  exists f n, nthz (faces cs) s = Some (f, n) /\ In f [lit "boundary"; lit "lease"] /\ times (s + 1) (universe cs) = 0%nat.
Definition others_are (cs : list component) (l : list CollIn) : Prop :=
  (l = [] /\ forall s, ~ boundary_away cs s) \/
  (exists c, l = [c] /\ ci_kind c = KBoundary /\ ci_name c = lit "undefined boundary" /\ NoDup (ci_surfaces c) /\
     ci_surfaces c <> [] /\ forall s, In s (ci_surfaces c) <-> boundary_away cs s).
Definition region_is (r : bytes * list Z) (b : BlkIn) : Prop :=
  bi_name b = fst r /\ NoDup (bi_boundaries b) /\ NoDup (bi_internals b) /\
  (forall s, In s (bi_boundaries b) <-> 0 <= s /\ times (s + 1) (snd r) = 1%nat) /\
  (forall s, In s (bi_internals b) <-> 0 <= s /\ times (s + 1) (snd r) = 2%nat).
(** [nf]: the number of surfaces. *)
Definition unit_is (nf : Z) (u : bytes * list Z) (u' : bytes * list Z) : Prop :=
  fst u' = fst u /\ Forall2 (fun i b => i = nf + 2 + b) (filter (fun i => negb (i =? nf + 1)) (snd u)) (snd u').
(** The cell [c] joins the vertices numbered [t]. *)
Definition corners_are {F} (vs : list (vertex F)) (t c : Z * Z * Z) : Prop :=
  numbered vs (fst (fst t)) (fst (fst c)) /\ numbered vs (snd (fst t)) (snd (fst c)) /\ numbered vs (snd t) (snd c).
(** Number of the surface, name of its object, section. *)
Definition face_mesh_is {F} (e : Z * (option bytes * section F)) (m : Z * mesh F tri) : Prop :=
  fst m = fst e /\ m_name (snd m) = fst (snd e) /\ m_points (snd m) = map vx_point (sn_vertices (snd (snd e))) /\
  Forall2 (corners_are (sn_vertices (snd (snd e)))) (sn_triangles (snd (snd e))) (m_cells (snd m)).
Fixpoint numbered_sections {F} (cs : list component) (names : list bytes) (ss : list (sheet F)) : list (Z * (option bytes * section F)) :=
  match names, ss with
  | n :: names, s :: ss => combine (positions cs n) (map (pair (sh_name s)) (sh_sections s)) ++ numbered_sections cs names ss
  | _, _ => []
  end.
