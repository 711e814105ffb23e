(** * Shapefiles (model/internal/shp_input.cpp).
    GDAL gives the layers, features and points (trusted).  A component (corner, line or surface) is its name, the points of
    its mesh, the unique vertex of each point (None: not set) and the vertices of its edges or polygons.  Simplified: the
    numbers of vertices stay below 2^32, points are compared and copied as a whole. *)
From Coq Require Import ZArith List Lia Bool Ascii String.
From Verif Require Import Base Text GocadModel.
Import ListNotations.
Local Open Scope string_scope.
Local Open Scope list_scope.
Local Open Scope Z_scope.

Section Shp.
Variable P : Type.
Variable peq : P -> P -> bool.
(** [Polygon2D::triangulate] (OpenGeode): triangles, as ranks in the list of points. *)
Variable triangulate : list P -> list (list Z).

Inductive geometry :=
  | GMissing | GOther
  | GPoint (p : P)
  | GLine (l : list P) | GMultiLine (l : list (list P))
  | GPolygon (rings : list (list P)) | GMultiPolygon (l : list (list (list P))).
Inductive layer_type := TPoint | TLine | TPolygon | TOther.
Record layer := mkLayer { y_name : bytes; y_type : layer_type; y_features : list geometry }.
Record component := mkComponent { c_name : bytes; c_points : list P; c_uv : list (option Z); c_cells : list (list Z) }.
Record section := mkSection { s_corners : list component; s_lines : list component; s_surfaces : list component; s_nb_uv : Z }.

(** [OGRCurve::get_IsClosed]: the first and last points are equal; on a curve without points, points are read out of range. *)
Definition is_closed (l : list P) : res bool :=
  match l with [] => UB | p :: _ => Ok (peq p (last l p)) end.
(** read_points (170-193): vertices and unique vertices are created together. *)
Definition read_points (l : list P) (c : component) (uv : Z) : res (component * Z * Z) :=
  do closed <- is_closed l;
  let nb := if closed then (List.length l - 1)%nat else List.length l in
  let start := lenz (c_points c) in
  Ok (mkComponent (c_name c) (c_points c ++ firstn nb l) (c_uv c ++ map Some (rangez uv nb)) (c_cells c), uv + Z.of_nat nb, start).
Definition with_cells (l : list (list Z)) (c : component) : component := mkComponent (c_name c) (c_points c) (c_uv c) (c_cells c ++ l).
(** read_line (154-168).  A curve with no vertex: [nb_vertices() - 1] is before [start], and edges on missing vertices are
    created. *)
Definition read_line (l : list P) (c : component) (uv : Z) : res (component * Z) :=
  do '(c, uv, start) <- read_points l c uv;
  let nb := lenz (c_points c) in
  if nb - 1 <? start then UB
  else
    let c := with_cells (map (fun p => [p; p + 1]) (rangez start (Z.to_nat (nb - 1 - start)))) c in
    do closed <- is_closed l;
    Ok (if closed then with_cells [[start; nb - 1]] c else c, uv).
Definition read_lines (ls : list (list P)) (c : component) (uv : Z) : res (component * Z) :=
  foldM (fun s l => read_line l (fst s) (snd s)) ls (c, uv).
(** One ring of read_polygon (229-264).  Below NO_LID vertices it becomes a polygon (at least three vertices required). *)
Definition NO_LID : Z := 255.
Definition read_ring (l : list P) (c : component) (uv : Z) : res (component * Z) :=
  do '(c, uv, start) <- read_points l c uv;
  let nb := (List.length l - 1)%nat in
  if Z.of_nat nb <? NO_LID then
    if Z.of_nat nb <? 3 then UB else Ok (with_cells [rangez start nb] c, uv)
  else Ok (with_cells (map (map (Z.add start)) (triangulate (firstn nb l))) c, uv).
Definition read_polygon (rings : list (list P)) (c : component) (uv : Z) : res (component * Z) :=
  foldM (fun s l => read_ring l (fst s) (snd s)) rings (c, uv).
(** One feature of create_corner (96-115): the unique vertex of vertex 0 is set each time. *)
Definition read_point (p : P) (c : component) (uv : Z) : component * Z :=
  (mkComponent (c_name c) (c_points c ++ [p]) (match c_uv c with [] => [Some uv] | _ :: r => Some uv :: r ++ [None] end) (c_cells c), uv + 1).
Definition corner_feature (s : component * Z) (g : geometry) : res (component * Z) :=
  match g with GMissing => Throw ExData | GPoint p => Ok (read_point p (fst s) (snd s)) | _ => Ok s end.
(** One feature of create_line (124-151). *)
Definition line_feature (s : component * Z) (g : geometry) : res (component * Z) :=
  match g with
  | GMissing => Throw ExData
  | GLine l => read_line l (fst s) (snd s)
  | GMultiLine ls => read_lines ls (fst s) (snd s)
  | _ => Ok s
  end.
(** One feature of create_surface (200-226). *)
Definition surface_feature (s : component * Z) (g : geometry) : res (component * Z) :=
  match g with
  | GMissing => Throw ExData
  | GPolygon r => read_polygon r (fst s) (snd s)
  | GMultiPolygon l => foldM (fun s r => read_polygon r (fst s) (snd s)) l s
  | _ => Ok s
  end.
Definition empty_component (name : bytes) : component := mkComponent name [] [] [].
(** One layer (61-85, create_corner 88-117, create_line 119-152, create_surface 195-227). *)
Definition read_layer (s : section) (y : layer) : res section :=
  let start := (empty_component (y_name y), s_nb_uv s) in
  match y_type y with
  | TPoint => do '(c, uv) <- foldM corner_feature (y_features y) start; Ok (mkSection (s_corners s ++ [c]) (s_lines s) (s_surfaces s) uv)
  | TLine => do '(c, uv) <- foldM line_feature (y_features y) start; Ok (mkSection (s_corners s) (s_lines s ++ [c]) (s_surfaces s) uv)
  | TPolygon => do '(c, uv) <- foldM surface_feature (y_features y) start; Ok (mkSection (s_corners s) (s_lines s) (s_surfaces s ++ [c]) uv)
  | TOther => Ok s
  end.
Definition read_shp (layers : list layer) : res section := foldM read_layer layers (mkSection [] [] [] 0).
End Shp.
