(** * Corners and lines of a loaded .lso model

    Model of the end of [LSOInputImpl::read_file] (src/geode/geosciences_io/model/internal/
    lso_input.cpp, cited "in"): build_corners, build_lines, the relations added by
    split_on_internal_lines and what they call (in 471-751).

    What is abstract:
    - a point is of any type (it is only copied);
    - a surface is given by its points, the unique vertex of each of its vertices (read_triangles
      sets all of them, in 264-298), its border edges in the order of the triangles
      (SurfaceMesh::polygon_edges_on_border), its border loops in the order of
      SurfaceMesh::next_on_border, and all the edges of its triangles.  A border edge is given by its
      vertices 0 and 1.  Walking from an edge that is not on a border violates a precondition of
      OpenGeode: [UB];
    - the surfaces are numbered in the order of [model_.surfaces()], the lines in the order of
      their creation.  A corner is known by its unique vertex;
    - [line_relations] is a hash map: the relations are listed in the order of the insertions;
    - the splitting of the surfaces (SplitAlongSurfaceMeshBorders, in 747-750) is not modelled. *)
From Coq Require Import List ZArith Bool.
From Verif Require Import Base GocadModel MlLines.
Import ListNotations.
Local Open Scope list_scope.
Local Open Scope Z_scope.

Section LsoLines.
Variable P : Type.

Record BSurf := mkBSurf {
  bs_points : list P;
  bs_uv : list Z;
  bs_border : list edge;
  bs_loops : list (list edge);
  bs_edges : list edge
}.

(** ** Corners *)

(** containing_surfaces_ids (in 519-533): one entry for each vertex of a surface at the unique vertex *)
Fixpoint surfaces_at (k : Z) (ss : list BSurf) (u : Z) : list Z :=
  match ss with
  | [] => []
  | s :: r => map (fun _ => k) (filter (fun w => w =? u) (bs_uv s)) ++ surfaces_at (k + 1) r u
  end.
Definition containing (ss : list BSurf) (u : Z) : list Z := surfaces_at 0 ss u.

(** are_equal (in 535-555) *)
Definition are_equal (lhs rhs : list Z) : bool :=
  forallb (fun x => existsb (fun y => x =? y) rhs) lhs.

(** The corners: unique vertex and point *)
Definition corners := list (Z * P).
(** [model_.has_component_mesh_vertices( id, Corner3D )] *)
Definition has_corner (cs : corners) (u : Z) : bool := existsb (fun c => fst c =? u) cs.
(** create_corner (in 557-568) *)
Definition create_corner (cs : corners) (p : P) (u : Z) : corners :=
  if has_corner cs u then cs else cs ++ [(u, p)].

(** build_corner_from_edge (in 488-517) *)
Definition corner_from_edge (ss : list BSurf) (s : BSurf) (cs : corners) (e : edge) : res corners :=
  do u0 <- idxz (bs_uv s) (fst e);
  do u1 <- idxz (bs_uv s) (snd e);
  let s0 := containing ss u0 in
  let s1 := containing ss u1 in
  if lenz s1 <? lenz s0 then
    do p <- idxz (bs_points s) (fst e); Ok (create_corner cs p u0)
  else if lenz s0 <? lenz s1 then
    do p <- idxz (bs_points s) (snd e); Ok (create_corner cs p u1)
  else if are_equal s0 s1 then Ok cs
  else
    do p0 <- idxz (bs_points s) (fst e);
    do p1 <- idxz (bs_points s) (snd e);
    Ok (create_corner (create_corner cs p0 u0) p1 u1).

(** build_corners (in 471-486) *)
Definition build_corners (ss : list BSurf) : res corners :=
  foldM (fun cs s => foldM (corner_from_edge ss s) (bs_border s) cs) ss [].

(** ** Lines *)

(** A line: the unique vertex and the point of each of its vertices; its edges join
    consecutive vertices *)
Definition lline := list (Z * P).

(** SurfaceMesh::next_on_border *)
Definition next_border (s : BSurf) (e : edge) : res edge := follow_loops (bs_loops s) e.

(** The loop of build_line (in 663-674): the vertices added.  [fuel] is the number of border edges: a
    walk that visits more edges than there are visits one twice and goes on forever. *)
Fixpoint line_walk (cs : corners) (s : BSurf) (fuel : nat) (e : edge) : res lline :=
  match fuel with
  | O => Hang
  | S f =>
      do e' <- next_border s e;
      do u <- idxz (bs_uv s) (fst e');
      do p <- idxz (bs_points s) (fst e');
      if has_corner cs u then Ok [(u, p)]
      else do r <- line_walk cs s f e'; Ok ((u, p) :: r)
  end.
(** build_line (in 645-674) *)
Definition build_line (cs : corners) (s : BSurf) (e : edge) : res lline :=
  do u <- idxz (bs_uv s) (fst e);
  do p <- idxz (bs_points s) (fst e);
  do r <- line_walk cs s (List.length (concat (bs_loops s))) e;
  Ok ((u, p) :: r).

(** The test of common_line (in 697-718) for a line: vertices of the line at the two unique vertices
    with consecutive numbers *)
Fixpoint neighbours (u0 u1 : Z) (l : lline) : bool :=
  match l with
  | a :: ((b :: _) as t) =>
      ((fst a =? u0) && (fst b =? u1)) || ((fst a =? u1) && (fst b =? u0)) || neighbours u0 u1 t
  | _ => false
  end.
(** common_line (in 694-720): the component mesh vertices of a unique vertex are in the order in
    which they were set, the lines are then in the order of their creation *)
Fixpoint find_line (k : Z) (ls : list lline) (u0 u1 : Z) : option Z :=
  match ls with
  | [] => None
  | l :: r => if neighbours u0 u1 l then Some k else find_line (k + 1) r u0 u1
  end.
Definition common_line (ls : list lline) (u0 u1 : Z) : option Z := find_line 0 ls u0 u1.

(** line_relations (in 600-616) *)
Fixpoint count_line (k : Z) (rel : list (Z * Z)) : list (Z * Z) :=
  match rel with
  | [] => [(k, 1)]
  | (j, n) :: r => if j =? k then (j, n + 1) :: r else (j, n) :: count_line k r
  end.

(** The corners related to a line (in 675-691): those at its first and last unique vertices *)
Definition line_corners (cs : corners) (u0 u1 : Z) : list Z :=
  filter (fun u => u =? u0) (map fst cs) ++ filter (fun u => u =? u1) (map fst cs).

Record LineSt := mkLineSt {
  st_lines : list lline;
  st_ends : list (list Z)      (* the corners related to each line *)
}.
(** The body of the loop of build_lines over the border edges (in 583-617) *)
Definition border_step (cs : corners) (s : BSurf) (x : LineSt * list (Z * Z)) (e : edge)
  : res (LineSt * list (Z * Z)) :=
  let '(st, rel) := x in
  do u0 <- idxz (bs_uv s) (fst e);
  if has_corner cs u0 then
    do u1 <- idxz (bs_uv s) (snd e);
    match common_line (st_lines st) u0 u1 with
    | Some k => Ok (st, count_line k rel)
    | None =>
        do l <- build_line cs s e;
        Ok (mkLineSt (st_lines st ++ [l]) (st_ends st ++ [line_corners cs u0 (last (map fst l) u0)]),
            count_line (lenz (st_lines st)) rel)
    end
  else Ok (st, rel).

(** build_line_relations (in 622-643): (line, internal) *)
Definition line_relation (r : Z * Z) : res (Z * bool) :=
  if snd r =? 1 then Ok (fst r, false) else if snd r =? 2 then Ok (fst r, true) else Throw ExData.

(** build_lines (in 575-620): the lines, and the relations of each surface *)
Fixpoint build_lines (cs : corners) (st : LineSt) (ss : list BSurf) : res (LineSt * list (list (Z * bool))) :=
  match ss with
  | [] => Ok (st, [])
  | s :: r =>
      do '(st1, rel) <- foldM (border_step cs s) (bs_border s) (st, []);
      do rs <- mapM line_relation rel;
      do '(st2, rest) <- build_lines cs st1 r;
      Ok (st2, rs :: rest)
  end.

(** ** Relations added by split_on_internal_lines (in 722-745) *)

(** [component_mesh_edges( model_, line, 0 ).surface_edges] mentions the surface: one of its edges
    joins the unique vertices of the first edge of the line.  An empty mesh: out of range. *)
Definition on_surface (s : BSurf) (u0 u1 : Z) : bool :=
  existsb (fun e =>
    match nthz (bs_uv s) (fst e), nthz (bs_uv s) (snd e) with
    | Some a, Some b => ((a =? u0) && (b =? u1)) || ((a =? u1) && (b =? u0))
    | _, _ => false
    end) (bs_edges s).
Definition missing (s : BSurf) (rs : list (Z * bool)) (k : Z) (l : lline) : bool :=
  match l with
  | a :: b :: _ => on_surface s (fst a) (fst b) && negb (existsb (fun r => fst r =? k) rs)
  | _ => false
  end.
Fixpoint missing_lines (s : BSurf) (rs : list (Z * bool)) (k : Z) (ls : list lline) : list Z :=
  match ls with
  | [] => []
  | l :: r => (if missing s rs k l then [k] else []) ++ missing_lines s rs (k + 1) r
  end.
(** The relations of each surface afterwards, and whether [inspect_required_] is set *)
Definition add_internal (ls : list lline) (s : BSurf) (rs : list (Z * bool)) : list (Z * bool) :=
  rs ++ map (fun k => (k, true)) (missing_lines s rs 0 ls).
Definition split_required (ls : list lline) (s : BSurf) (rs : list (Z * bool)) : bool :=
  match missing_lines s rs 0 ls with [] => false | _ => true end.

Record Built := mkBuilt {
  b_corners : corners;
  b_lines : list lline;
  b_ends : list (list Z);
  b_relations : list (list (Z * bool));
  b_inspect : bool
}.
(** The end of read_file (in 119-121) *)
Definition build_frame (ss : list BSurf) : res Built :=
  do cs <- build_corners ss;
  do '(st, rels) <- build_lines cs (mkLineSt [] []) ss;
  let both := combine ss rels in
  Ok (mkBuilt cs (st_lines st) (st_ends st)
        (map (fun x => add_internal (st_lines st) (fst x) (snd x)) both)
        (existsb (fun x => split_required (st_lines st) (fst x) (snd x)) both)).
End LsoLines.
