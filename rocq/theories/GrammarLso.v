(** * Specification of the GOCAD LightTSolid files (.lso), whoever wrote them.

    What the lines of a file say, independently of the reader: the vertices and their copies, the tetrahedra and the block each
    one belongs to, the surfaces of each horizon, the regions.  See Grammar.v for the parts shared with the other GOCAD files. *)
From Coq Require Import ZArith List Lia Bool Ascii String.
From Verif Require Import Base Text Spec GocadModel MeshModel TsModel Grammar LsoModel LsoRead.
Import ListNotations.
Local Open Scope string_scope.
Local Open Scope list_scope.
Local Open Scope Z_scope.

(** ** Vertices *)
(** VRTX or PVRTX number x y z values, at the beginning of the line. *)
Definition original_line (F : Num) (up : bool) (ps : list (property F)) (l : bytes) (v : vertex F) : Prop :=
  (starts "VRTX" l \/ starts "PVRTX" l) /\ vertex_line F up ps l v.
(** SHAREDVRTX or SHAREDPVRTX number other values: a copy of vertex [other]. *)
Definition copy_line (F : Num) (ps : list (property F)) (l : bytes) (other : Z) (v : vertex F) : Prop :=
  (starts "SHAREDVRTX" l \/ starts "SHAREDPVRTX" l) /\
  exists k tn ti texts, string_split l = k :: tn :: ti :: texts /\ number tn (vx_number v) /\ number ti other /\
    values_text F ps texts (vx_values v).
(** The vertices [vs], then the copies [cs] (number of the vertex, copy), all numbered from 1. *)
Definition solid_vertices (F : Num) (up : bool) (ps : list (property F)) (ls : list bytes) (vs : list (vertex F)) (cs : list (Z * vertex F)) : Prop :=
  exists l1 l2, ls = l1 ++ l2 /\ vs <> [] /\
    Forall2 (original_line F up ps) l1 vs /\ Forall2 (fun l c => copy_line F ps l (fst c) (snd c)) l2 cs /\
    Forall (fun c => exists v, In v vs /\ vx_number v = fst c /\ vx_point (snd c) = vx_point v) cs /\
    map vx_number (vs ++ map snd cs) = rangez 1 (List.length (vs ++ map snd cs)).
(** Lines that are not data: BEGIN_kind_REGION_INDICATORS ... END_kind_REGION_INDICATORS. *)
Definition indicators (kind : bytes) (ls : list bytes) : Prop :=
  ls = [] \/ exists first inner last, ls = first :: inner ++ [last] /\
    starts (lit "BEGIN_" ++ kind ++ lit "_REGION_INDICATORS") first /\
    Forall (starts_not (lit "END_" ++ kind ++ lit "_REGION_INDICATORS")) inner /\
    starts (lit "END_" ++ kind ++ lit "_REGION_INDICATORS") last.

(** ** Tetrahedra *)
(** Numbers of the corners, name of the block, values. *)
Record cell (F : Num) := mkCell { c_corners : quad; c_block : bytes; c_values : list (list (num F)) }.
Arguments mkCell {F}. Arguments c_corners {F}. Arguments c_block {F}. Arguments c_values {F}.
(** Two lines: TETRA a b c d values, then a line whose third word is the name of the block. *)
Definition cell_lines (F : Num) (ps : list (property F)) (ls : list bytes) (c : cell F) : Prop :=
  exists l1 l2, ls = [l1; l2] /\ starts "TETRA" l1 /\
    (exists k ta tb tc td texts, string_split l1 = k :: ta :: tb :: tc :: td :: texts /\
       Forall2 number [ta; tb; tc; td] (quad_list (c_corners c)) /\ values_text F ps texts (c_values c)) /\
    exists w1 w2 more, string_split l2 = w1 :: w2 :: c_block c :: more.

(** ** Surfaces *)
(** TFACE, a line, then TRGL lines. *)
Definition face_text (ls : list bytes) (ts : list tri) : Prop :=
  exists l0 l1 lt, ls = l0 :: l1 :: lt /\ starts "TFACE" l0 /\
    Forall2 (fun l t => starts "TRGL" l /\ trgl_words l t) lt ts.
(** SURFACE name, then the faces. *)
Definition horizon_text (ls : list bytes) (e : bytes * list (list tri)) : Prop :=
  exists l0 fl k text, ls = l0 :: List.concat fl /\ starts "SURFACE" l0 /\
    string_split l0 = k :: string_split text /\ fst e = normalise text /\ Forall2 face_text fl (snd e).

(** ** Regions *)
Definition region_line (l name : bytes) : Prop :=
  starts "MODEL_REGION" l /\ exists k more, string_split l = k :: name :: more.

(** ** The file *)
Record solid_text (F : Num) := mkSolidText {
  x_title : option bytes;
  x_props : list (property F);
  x_tprops : list (property F);
  x_vertices : list (vertex F);
  x_copies : list (Z * vertex F);
  x_cells : list (cell F);
  x_horizons : list (bytes * list (list tri));
  x_regions : list bytes
}.
Arguments mkSolidText {F}. Arguments x_title {F}. Arguments x_props {F}. Arguments x_tprops {F}. Arguments x_vertices {F}.
Arguments x_copies {F}. Arguments x_cells {F}. Arguments x_horizons {F}. Arguments x_regions {F}.
Definition all_vertices {F} (x : solid_text F) : list (vertex F) := x_vertices x ++ map snd (x_copies x).
Definition ends_model (l : bytes) : Prop :=
  starts_not "SURFACE" l /\ starts_not "TFACE" l /\ starts_not "TRGL" l /\ starts_not "MODEL_REGION" l.
Definition lso_says (F : Num) (ls : list bytes) (x : solid_text F) : Prop :=
  exists up pb tb between vl iv cl it skipped model hl rl last rest,
    object_text "GOCAD LightTSolid" ls (x_title x) up
      (pb ++ tb ++ between ++ vl ++ iv ++ List.concat cl ++ it ++ skipped ++ model :: List.concat hl ++ rl ++ last :: rest) /\
    prefixed_properties F [] pb (x_props x) /\ (pb = [] -> not_next "PROPERTIES" (tb ++ between ++ vl)) /\
    prefixed_properties F "TETRA_" tb (x_tprops x) /\ (tb = [] -> not_next "TETRA_PROPERTIES" (between ++ vl)) /\
    Forall (fun l => starts_not "VRTX" l /\ starts_not "PVRTX" l) between /\
    solid_vertices F up (x_props x) vl (x_vertices x) (x_copies x) /\
    indicators "VERTEX" iv /\ (forall l r, iv ++ List.concat cl = l :: r -> contains l "VRTX" = false) /\
    x_cells x <> [] /\ Forall2 (cell_lines F (x_tprops x)) cl (x_cells x) /\
    indicators "TETRA" it /\
    Forall (fun l => starts_not "TETRA" l /\ starts_not "BEGIN_TETRA_REGION_INDICATORS" l /\ starts_not "MODEL" l) skipped /\
    starts "MODEL" model /\
    Forall2 horizon_text hl (x_horizons x) /\ Forall2 region_line rl (x_regions x) /\ ends_model last.
(** The references are to vertices of the file: the triangles to originals. *)
Definition references {F} (x : solid_text F) : Prop :=
  Forall (fun c => Forall (declared (all_vertices x)) (quad_list (c_corners c))) (x_cells x) /\
  Forall (fun h => Forall (Forall (fun t => Forall (declared (x_vertices x)) (tri_list t))) (snd h)) (x_horizons x).

(** ** The model *)
(** The number of the original of vertex [n]. *)
Definition original_of {F} (x : solid_text F) (n o : Z) : Prop :=
  (n = o /\ declared (x_vertices x) n) \/ exists v, In (o, v) (x_copies x) /\ vx_number v = n.
(** The mesh with points [pts], unique vertices [uv] and cells [cells] is made of the vertices of numbers [ns], each one
    once, and its cells are [given] in order. *)
Record made_of {F} {C : Type} (corners : C -> list Z) (x : solid_text F) (given : list C)
    (pts : list (point F)) (uv : list Z) (cells : list C) (ns : list Z) : Prop := {
  mo_once : NoDup ns;
  mo_used : forall n, In n ns <-> exists c, In c given /\ In n (corners c);
  mo_points : Forall2 (fun n p => exists v, In v (all_vertices x) /\ vx_number v = n /\ vx_point v = p) ns pts;
  mo_unique : Forall2 (fun n u => original_of x n (u + 1)) ns uv;
  mo_cells : Forall2 (fun c c' => Forall2 (fun n i => nthz ns i = Some n) (corners c) (corners c')) given cells
}.
(** The surfaces of the file, with the name of their horizon. *)
Definition named_faces {F} (x : solid_text F) : list (bytes * list tri) :=
  flat_map (fun h => map (pair (fst h)) (snd h)) (x_horizons x).
Definition surface_is {F} (x : solid_text F) (e : bytes * list tri) (h : LSurfR F) : Prop :=
  h_name h = fst e /\ exists ns, made_of tri_list x (snd e) (h_points h) (h_uv h) (h_tris h) ns.
(** The horizons take the surfaces in order: [from] the first one. *)
Fixpoint horizons_are (from : Z) (hs : list (bytes * list (list tri))) (rs : list (bytes * Z * Z)) : Prop :=
  match hs, rs with
  | [], [] => True
  | h :: hs, r :: rs => r = (fst h, from, from + lenz (snd h)) /\ horizons_are (from + lenz (snd h)) hs rs
  | _, _ => False
  end.
Definition block_is {F} (x : solid_text F) (name : bytes) (r : LBlockR F) : Prop :=
  r_name r = name /\ exists ns,
    made_of quad_list x (map c_corners (filter (fun c => beq (c_block c) name) (x_cells x))) (r_points r) (r_uv r) (r_tets r) ns /\
    map fst (r_vattrs r) = map pr_name (x_props x) /\ map fst (r_tattrs r) = map pr_name (x_tprops x) /\
    forall j p, nth_error (x_props x) j = Some p -> exists a, find_attr (pr_name p) (r_vattrs r) = Some a /\
      Forall2 (fun n vals => exists v, In v (all_vertices x) /\ vx_number v = n /\ nth_error (vx_values v) j = Some vals) ns (a_vals a).
(** Files with properties of tetrahedra: the tetrahedra are enough (see C47). *)
Definition enough_cells {F} (x : solid_text F) : Prop :=
  x_tprops x = [] \/
  (Forall (fun c => Forall (fun n => n <= lenz (x_cells x)) (quad_list (c_corners c))) (x_cells x) /\
   forall name ns, In name (x_regions x) -> NoDup ns ->
     (forall n, In n ns <-> exists c, In c (x_cells x) /\ c_block c = name /\ In n (quad_list (c_corners c))) ->
     lenz ns <= lenz (filter (fun c => beq (c_block c) name) (x_cells x))).
