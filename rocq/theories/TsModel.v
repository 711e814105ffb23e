(** * Model of mesh/ts_input.cpp, ts_output.cpp, vs_input.cpp, vs_output.cpp,
    pl_input.cpp (the readers and writers of TSurf and VSet, the reader of PLine). *)
From Coq Require Import ZArith List Lia Bool Ascii String.
From Verif Require Import Base Text GocadModel MeshModel.
Import ListNotations.
Local Open Scope string_scope.
Local Open Scope list_scope.
Local Open Scope Z_scope.

Definition tri := (Z * Z * Z)%type.

(** [builder_->create_triangle( triangle )]. *)
Definition create_triangle {F} (m : mesh F tri) (t : tri) : res (mesh F tri) :=
  let '(a, b, c) := t in
  if valid_vertex m a && valid_vertex m b && valid_vertex m c
  then Ok (add_cell t m) else UB.
(** [vertex += offset] on the three corners (ts_input.cpp 84-91). *)
Definition shift_tri (offset : Z) (t : tri) : tri :=
  let '(a, b, c) := t in (add32 a offset, add32 b offset, add32 c offset).

(** TSInputImpl::build_surface (ts_input.cpp 64-101).  The size of the mesh before
    the surface is added is [offset]; the attributes are written through
    create_attributes with the identity mapping, starting at vertex 0. *)
Definition build_surface {F} (m : mesh F tri) (ts : TSurf F) : res (mesh F tri) :=
  let offset := nb_vertices m in
  let m1 := create_points (t_points ts) (set_name (t_name ts) m) in
  do m2 <- foldM create_triangle
             (if offset =? 0 then t_triangles ts
              else map (shift_tri offset) (t_triangles ts)) m1;
  create_attributes (t_props ts) (t_values ts) (List.length (t_points ts))
                    (seq 0 (List.length (t_points ts))) m2.

(** TSInputImpl::read_file (ts_input.cpp 54-61).  compute_polygon_adjacencies is a
    function of the triangles and is not modelled.  The fuel bounds the number
    of objects; each object consumes at least one line. *)
Fixpoint read_ts_loop {F} (fuel : nat) (m : mesh F tri) (s : istream) : res (mesh F tri) :=
  match fuel with
  | O => Hang
  | S f =>
      do '(o, s1) <- read_tsurf F s;
      match o with
      | None => Ok m
      | Some ts => do m1 <- build_surface m ts; read_ts_loop f m1 s1
      end
  end.
(** TSInput::read (ts_input.cpp 114-121) on the content of the file. *)
Definition read_ts (F : Num) (text : bytes) : res (mesh F tri) :=
  let s := open_text text in read_ts_loop (S (List.length (pending s))) empty_mesh s.

(** VSInputImpl::build_point_set (vs_input.cpp 62-80). *)
Definition build_point_set {F} (m : mesh F unit) (vs : VSet F) : res (mesh F unit) :=
  let m1 := create_points (v_points vs) (set_name (v_name vs) m) in
  create_attributes (v_props vs) (v_values vs) (List.length (v_points vs))
                    (seq 0 (List.length (v_points vs))) m1.
(** VSInputImpl::read_file (vs_input.cpp 52-59). *)
Fixpoint read_vs_loop {F} (fuel : nat) (m : mesh F unit) (s : istream) : res (mesh F unit) :=
  match fuel with
  | O => Hang
  | S f =>
      do '(o, s1) <- read_vs_points F s;
      match o with
      | None => Ok m
      | Some vs => do m1 <- build_point_set m vs; read_vs_loop f m1 s1
      end
  end.
(** VSInput::read (vs_input.cpp 93-99). *)
Definition read_vs (F : Num) (text : bytes) : res (mesh F unit) :=
  let s := open_text text in read_vs_loop (S (List.length (pending s))) empty_mesh s.

Notation edge := (Z * Z)%type.
(** [builder_->create_edge( a, b )]. *)
Definition create_edge {F} (m : mesh F edge) (e : edge) : res (mesh F edge) :=
  let '(a, b) := e in
  if valid_vertex m a && valid_vertex m b then Ok (add_cell e m) else UB.
(** PLInputImpl::build_curve (pl_input.cpp 61-80). *)
Definition build_curve {F} (m : mesh F edge) (ec : ECurve F) : res (mesh F edge) :=
  let offset := nb_vertices m in
  let m1 := create_points (e_points ec) (set_name (e_name ec) m) in
  foldM create_edge
    (map (fun e => (add32 (fst e) offset, add32 (snd e) offset)) (e_edges ec)) m1.
(** PLInputImpl::read_file (pl_input.cpp 52-58). *)
Fixpoint read_pl_loop {F} (fuel : nat) (m : mesh F edge) (s : istream) : res (mesh F edge) :=
  match fuel with
  | O => Hang
  | S f =>
      do '(o, s1) <- read_ecurve F s;
      match o with
      | None => Ok m
      | Some ec => do m1 <- build_curve m ec; read_pl_loop f m1 s1
      end
  end.
(** PLInput::read (pl_input.cpp 93-99). *)
Definition read_pl (F : Num) (text : bytes) : res (mesh F edge) :=
  let s := open_text text in read_pl_loop (S (List.length (pending s))) empty_mesh s.

(** is_loadable (ts_input.cpp 123-131, vs_input.cpp 101-109, pl_input.cpp 101-109):
    [true] stands for Percentage 1. *)
Definition loadable (kw : bytes) (text : bytes) : bool :=
  match goto_if kw (open_text text) with (Some _, _) => true | (None, _) => false end.

(** ** Writers *)

(** A vertex attribute as the writers see it: its name, whether its values can be
    converted to a number ([is_genericable]) and [generic_value]. *)
Record wattr (F : Num) := mkWattr {
  w_name : bytes;
  w_generic : bool;
  w_val : nat -> num F
}.
Arguments mkWattr {F}. Arguments w_name {F}. Arguments w_generic {F}. Arguments w_val {F}.

(** The mesh given to the writers. [wm_attrs] is what attribute_names() returns,
    in the (unspecified) order it returns it. *)
Record wmesh (F : Num) (C : Type) := mkWmesh {
  wm_name : option bytes;
  wm_points : list (point F);
  wm_cells : list C;
  wm_attrs : list (wattr F)
}.
Arguments mkWmesh {F C}. Arguments wm_name {F C}. Arguments wm_points {F C}.
Arguments wm_cells {F C}. Arguments wm_attrs {F C}.

(** Attributes kept by write_prop_header (ts_output.cpp 83-110,
    vs_output.cpp 87-114). *)
Definition exported {F} (w : wattr F) : bool :=
  w_generic w && negb (beq (w_name w) "points").
(** Header of the exported attributes (ts_output.cpp 94-105, vs_output.cpp 98-108,
    pl_output.cpp 77-87). *)
Definition prop_header_of {F} (ws : list (wattr F)) : PropHeader (num F) :=
  mkProp (map w_name ws)
         (map (fun _ => (lit "**none**", lit "**none**")) ws)
         (map (fun _ => ndv F) ws)
         (map w_name ws)
         (map (fun _ => lit "Real Number") ws)
         (map (fun _ => (lit "QUANTITY", lit "Float")) ws)
         (map (fun _ => 1) ws)
         (map (fun _ => lit "unitless") ws).
(** write_xyz_prop_class_header (ts_output.cpp 123-145, vs_output.cpp 126-148,
    pl_output.cpp 105-127). *)
Definition xyz_class_headers : list bytes :=
  write_property_class_header "X" "X" "m" false ++
  write_property_class_header "Y" "Y" "m" false ++
  write_property_class_header "Z" "Z" "m" true.
(** write_prop_header, text part (ts_output.cpp 112-120, vs_output.cpp 115-123,
    pl_output.cpp 94-102). *)
Definition prop_lines {F} (ws : list (wattr F)) : list bytes :=
  (match ws with [] => [] | _ => write_prop_header F (prop_header_of ws) end) ++
  xyz_class_headers ++
  flat_map (fun w => write_property_class_header (w_name w) "Real Number" "unitless" false) ws.
(** VRTX_KEYWORD: PVRTX as soon as there is an attribute of any kind
    (ts_output.cpp 85, vs_output.cpp 82-85, pl_output.cpp 69). *)
Definition vrtx_keyword {F} (ws : list (wattr F)) : bytes :=
  match ws with [] => "VRTX" | _ => "PVRTX" end.

(** [Point3D::string()]: the three coordinates separated by spaces. *)
Definition point_string {F} (p : point F) : bytes :=
  let '(x, y, z) := p in pt_text F x ++ SP :: pt_text F y ++ SP :: pt_text F z.

(** write_vrtx (ts_output.cpp 161-170, vs_output.cpp 158-167). *)
Definition vrtx_line {F} (kw : bytes) (ws : list (wattr F)) (v : nat) (p : point F) : bytes :=
  kw ++ SP :: show (Z.of_nat v) ++ SP :: point_string p ++
  spaced (map (fun w => os_text F (w_val w v)) ws).
Fixpoint vrtx_lines {F} (kw : bytes) (ws : list (wattr F)) (v : nat) (ps : list (point F))
  : list bytes :=
  match ps with
  | [] => []
  | p :: r => vrtx_line kw ws v p :: vrtx_lines kw ws (S v) r
  end.
(** write_triangle (ts_output.cpp 172-178). *)
Definition trgl_line (t : tri) : bytes :=
  let '(a, b, c) := t in lit "TRGL " ++ show a ++ SP :: show b ++ SP :: show c.

(** TSOutputImpl::write_file (ts_output.cpp 56-71, write_tface 147-159). *)
Definition ts_lines {F} (m : wmesh F tri) : list bytes :=
  let ws := filter exported (wm_attrs m) in
  [lit "GOCAD TSurf 1"] ++ write_header (wm_name m) ++ write_CRS default_crs ++
  prop_lines ws ++
  [lit "TFACE"] ++
  vrtx_lines (vrtx_keyword (wm_attrs m)) ws 0 (wm_points m) ++
  map trgl_line (wm_cells m) ++
  [lit "END"].
Definition write_ts {F} (m : wmesh F tri) : bytes := unlines (ts_lines m).

(** VSOutputImpl::write_file (vs_output.cpp 56-71, write_vset 150-156). *)
Definition vs_lines {F} (m : wmesh F unit) : list bytes :=
  let ws := filter exported (wm_attrs m) in
  [lit "GOCAD VSet 1"] ++ write_header (wm_name m) ++ write_CRS default_crs ++
  prop_lines ws ++
  vrtx_lines (vrtx_keyword (wm_attrs m)) ws 0 (wm_points m) ++
  [lit "END"].
Definition write_vs {F} (m : wmesh F unit) : bytes := unlines (vs_lines m).
