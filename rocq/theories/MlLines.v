(** * Corners and lines of a loaded .ml model

    Model of the end of [MLInputImpl::read_file] (src/geode/geosciences_io/model/internal/
    ml_input.cpp, cited "in"): build_corners, build_lines and what they call.

    What is abstract:
    - a point is of any type; [near p q] stands for "the distance of p and q is at most epsilon_"
      (in 155-163, 459, 482, 326 and NNSearch3D);
    - a surface is given by its points, the directed edges of its triangles
      (SurfaceMesh::polygon_edge_from_vertices) and its border loops, each in the order of
      SurfaceMesh::previous_on_border (next_on_border is the opposite order); walking from an edge
      that is not on a border violates a precondition of OpenGeode: [UB];
    - components are numbered in the order of their creation; uuids are only compared by the code,
      and the order of the uuids used by the sort of in 258-261 is arbitrary: the theorem about the
      relations (C44) holds for every list of numbers, hence whatever this order;
    - NNSearch3D::colocated_index_mapping (in 185) keeps the first point of each group of near
      points; radius_neighbors (in 325) returns the numbers of the near points;
    - SplitAlongSurfaceMeshBorders (in 364-368) is not modelled: the surfaces it is called on are
      listed. *)
From Coq Require Import List ZArith Bool.
From Verif Require Import Base GocadModel MlModel.
Import ListNotations.
Local Open Scope list_scope.
Local Open Scope Z_scope.

Definition edge := (Z * Z)%type.
Definition edge_eqb (a b : edge) : bool := (fst a =? fst b) && (snd a =? snd b).

Section Lines.
Variables (P : Type) (near : P -> P -> bool).

Record LSurf := mkLSurf {
  ls_points : list P;
  ls_edges : list edge;         (* (v0, v1) for each directed edge of a triangle *)
  ls_loops : list (list edge)   (* the border edges, in the order of previous_on_border *)
}.

(** The edge that follows [e] in a loop, the first one after the last *)
Fixpoint follow (first : edge) (l : list edge) (e : edge) : option edge :=
  match l with
  | [] => None
  | x :: r => if edge_eqb x e then Some (match r with [] => first | y :: _ => y end) else follow first r e
  end.
Definition follow_loop (l : list edge) (e : edge) : option edge :=
  match l with [] => None | x :: _ => follow x l e end.
Fixpoint follow_loops (ls : list (list edge)) (e : edge) : res edge :=
  match ls with
  | [] => UB
  | l :: r => match follow_loop l e with Some x => Ok x | None => follow_loops r e end
  end.
(** SurfaceMesh::previous_on_border and next_on_border *)
Definition previous_on_border (s : LSurf) (e : edge) : res edge := follow_loops (ls_loops s) e.
Definition next_on_border (s : LSurf) (e : edge) : res edge := follow_loops (map (@rev edge) (ls_loops s)) e.

(** find_edge (in 60-78) *)
Definition find_edge (s : LSurf) (v0 v1 : Z) : res (edge * bool) :=
  if existsb (edge_eqb (v0, v1)) (ls_edges s) then Ok ((v0, v1), true)
  else if existsb (edge_eqb (v1, v0)) (ls_edges s) then Ok ((v1, v0), false)
  else Throw ExData.

(** The unique vertices of the vertices of a surface: [None] for NO_ID *)
Definition uvs := list (option Z).

(** The loops of compute_line (in 636-651 when [back], 654-668 otherwise): the vertices pushed.
    [fuel] is the number of border edges: a walk that visits more edges than there are visits one
    twice and goes on forever. *)
Definition walk_vertex (back : bool) (e : edge) : Z := if back then fst e else snd e.
Definition walk_step (s : LSurf) (back : bool) (e : edge) : res edge :=
  if back then previous_on_border s e else next_on_border s e.
Fixpoint walk (s : LSurf) (uv : uvs) (back : bool) (fuel : nat) (e : edge) : res (list Z) :=
  do u <- idxz uv (walk_vertex back e);
  match u with
  | Some _ => Ok [walk_vertex back e]
  | None =>
      match fuel with
      | O => Hang
      | S f =>
          do e' <- walk_step s back e;
          do r <- walk s uv back f e';
          Ok (walk_vertex back e :: r)
      end
  end.

Record LineData := mkLineData {
  d_c0 : Z; d_c1 : Z;         (* the corners *)
  d_points : list P;
  d_indices : list Z          (* vertices of the surface *)
}.

(** compute_line (in 600-680). When it is called the only unique vertices are those of the corners
    (numbered alike, in 187-195): the corner found at a unique vertex has its number. The starting
    vertex without unique vertex: component_mesh_vertices( NO_ID ), out of bounds. *)
Definition compute_line (s : LSurf) (uv : uvs) (corner next : Z) : res LineData :=
  do u <- idxz uv corner;
  match u with
  | None => UB
  | Some c0 =>
      do '(e, back) <- find_edge s next corner;
      do r <- walk s uv back (List.length (concat (ls_loops s))) e;
      let indices := corner :: r in
      do pts <- mapM (idxz (ls_points s)) indices;
      do u1 <- idxz uv (last indices corner);
      match u1 with
      | None => UB
      | Some c1 => Ok (mkLineData c0 c1 pts indices)
      end
  end.

Record Line := mkLine {
  ln_c0 : Z; ln_c1 : Z;
  ln_points : list P;
  ln_uv : list Z              (* unique vertex of each of its vertices *)
}.

(** are_lines_equal (in 445-465), are_lines_reverse_equal (in 467-488) *)
Fixpoint all_near (a b : list P) : bool :=
  match a, b with
  | [], [] => true
  | x :: a, y :: b => near x y && all_near a b
  | _, _ => false
  end.
Definition are_lines_equal (d : LineData) (l : Line) : bool := all_near (ln_points l) (d_points d).
Definition are_lines_reverse_equal (d : LineData) (l : Line) : bool := all_near (ln_points l) (rev (d_points d)).

(** The search in the lines of corners2line_ at the key (c0, c1), in the order of creation *)
Fixpoint search_line (ok : Line -> bool) (c0 c1 : Z) (k : Z) (ls : list Line) : option Z :=
  match ls with
  | [] => None
  | l :: r => if (ln_c0 l =? c0) && (ln_c1 l =? c1) && ok l then Some k else search_line ok c0 c1 (k + 1) r
  end.

(** create_line (in 515-568): the inner vertices get new unique vertices *)
Definition create_line (d : LineData) (next_uv : Z) : Line * Z :=
  let inner := (List.length (d_points d) - 2)%nat in
  (mkLine (d_c0 d) (d_c1 d) (d_points d) (d_c0 d :: rangez next_uv inner ++ [d_c1 d]),
   next_uv + Z.of_nat inner).

(** find_or_create_line (in 417-443): the lines and the number of unique vertices, the line found
    and the data, whose indices are reversed when the line is found in the other direction. *)
Definition find_or_create_line (st : list Line * Z) (d : LineData) : (list Line * Z) * (Z * list Z) :=
  let '(ls, nuv) := st in
  match search_line (are_lines_equal d) (d_c0 d) (d_c1 d) 0 ls with
  | Some k => (st, (k, d_indices d))
  | None =>
      match search_line (are_lines_reverse_equal d) (d_c1 d) (d_c0 d) 0 ls with
      | Some k => (st, (k, rev (d_indices d)))
      | None => let '(l, nuv') := create_line d nuv in ((ls ++ [l], nuv'), (lenz ls, d_indices d))
      end
  end.

(** create_lines (in 243-257), before the sort: (surface, line, indices) for each border read *)
Fixpoint create_lines (ss : list LSurf) (uv : list uvs) (st : list Line * Z) (starts : list (Z * edge))
  : res ((list Line * Z) * list (Z * (Z * list Z))) :=
  match starts with
  | [] => Ok (st, [])
  | (k, (corner, next)) :: r =>
      do s <- idxz ss k;
      do u <- idxz uv k;
      do d <- compute_line s u corner next;
      let '(st', x) := find_or_create_line st d in
      do '(st'', l) <- create_lines ss uv st' r;
      Ok (st'', (k, x) :: l)
  end.

(** ** create_line_surface_relationships (in 265-299) for a surface, on its sorted lines *)
Inductive event :=
| Boundary (l : Z) (indices : list Z)   (* register_line_data, in 570-577 *)
| Internal (l : Z) (indices : list Z)   (* register_internal_line_data, in 579-586 *)
| Vertices (l : Z) (indices : list Z).  (* register_line_surface_vertex_identifier, in 588-598 *)
Fixpoint pair_events (l : list (Z * list Z)) : list event :=
  match l with
  | a :: ((b :: r) as t) =>
      if fst a =? fst b then Internal (fst a) (snd a) :: Vertices (fst b) (snd b) :: pair_events r
      else Boundary (fst a) (snd a) :: pair_events t
  | _ => []
  end.
Definition last_event (l : list (Z * list Z)) : list event :=
  match rev l with
  | x :: y :: _ => if fst y =? fst x then [] else [Boundary (fst x) (snd x)]
  | _ => []
  end.
Fixpoint insert_line (x : Z * list Z) (l : list (Z * list Z)) : list (Z * list Z) :=
  match l with [] => [x] | y :: r => if fst x <=? fst y then x :: l else y :: insert_line x r end.
Definition sort_lines (l : list (Z * list Z)) : list (Z * list Z) := fold_right insert_line [] l.
Definition surface_events (l : list (Z * list Z)) : list event :=
  let l := sort_lines l in pair_events l ++ last_event l.

(** The relations added: (line, internal) *)
Definition event_relation (e : event) : list (Z * bool) :=
  match e with Boundary l _ => [(l, false)] | Internal l _ => [(l, true)] | Vertices _ _ => [] end.
Definition relations (evs : list event) : list (Z * bool) := flat_map event_relation evs.

(** The unique vertices set on the surface by an event: those of the line, in order *)
Fixpoint set_all (uv : uvs) (indices uvl : list Z) : res uvs :=
  match indices, uvl with
  | [], _ => Ok uv
  | _ :: _, [] => UB
  | i :: ir, u :: ur => do uv' <- setz uv i (Some u); set_all uv' ir ur
  end.
Definition event_data (e : event) : Z * list Z :=
  match e with Boundary l i | Internal l i | Vertices l i => (l, i) end.
Definition register (ls : list Line) (uv : uvs) (e : event) : res uvs :=
  let '(k, indices) := event_data e in
  do l <- idxz ls k;
  set_all uv indices (ln_uv l).

(** The lines of surface [k] *)
Definition lines_of (k : Z) (l : list (Z * (Z * list Z))) : list (Z * list Z) :=
  map snd (filter (fun x => fst x =? k) l).

Fixpoint relate_surfaces (ls : list Line) (found : list (Z * (Z * list Z))) (k : Z) (uv : list uvs)
  : res (list uvs * list (list (Z * bool))) :=
  match uv with
  | [] => Ok ([], [])
  | u :: r =>
      let evs := surface_events (lines_of k found) in
      do u' <- foldM (register ls) evs u;
      do '(r', rel) <- relate_surfaces ls found (k + 1) r;
      Ok (u' :: r', relations evs :: rel)
  end.

(** ** create_missing_line_surface_relationships (in 309-371) *)
(** create_unique_vertices_search (in 391-415) for unique vertex [u]: the point of the first line
    vertex that has it *)
Fixpoint point_in (pts : list P) (uvl : list Z) (u : Z) : option P :=
  match pts, uvl with
  | p :: pr, x :: xr => if x =? u then Some p else point_in pr xr u
  | _, _ => None
  end.
Fixpoint unique_point (ls : list Line) (u : Z) : res P :=
  match ls with
  | [] => Throw ExData
  | l :: r => match point_in (ln_points l) (ln_uv l) u with Some p => Ok p | None => unique_point r u end
  end.
Definition search_points (ls : list Line) (nuv : Z) : res (list P) :=
  mapM (unique_point ls) (rangez 0 (Z.to_nat nuv)).
(** radius_neighbors *)
Fixpoint neighbors (p : P) (k : Z) (pts : list P) : list Z :=
  match pts with
  | [] => []
  | q :: r => if near p q then k :: neighbors p (k + 1) r else neighbors p (k + 1) r
  end.

(** model_.has_component_mesh_vertices( vertex, surface.id() ) *)
Definition on_surface (uv : uvs) (u : Z) : bool :=
  existsb (fun o => match o with Some x => x =? u | None => false end) uv.
(** should_line_be_internal (in 373-389) *)
Definition should_line_be_internal (uv : uvs) (l : Line) : bool := forallb (on_surface uv) (ln_uv l).
Definition is_internal (rel : list (Z * bool)) (k : Z) : bool :=
  existsb (fun x => (fst x =? k) && snd x) rel.

(** The loop of in 343-360 on the lines that have a vertex at [u]; a second vertex of the same line
    there (closed line) finds the line already internal. *)
Fixpoint internal_lines (uv : uvs) (u : Z) (k : Z) (ls : list Line) (rel : list (Z * bool)) : list (Z * bool) :=
  match ls with
  | [] => rel
  | l :: r =>
      internal_lines uv u (k + 1) r
        (if existsb (Z.eqb u) (ln_uv l) && negb (is_internal rel k) && should_line_be_internal uv l
         then rel ++ [(k, true)] else rel)
  end.

(** The loop on the vertices of a surface (in 316-361), from vertex [v] *)
Fixpoint missing_vertices (ls : list Line) (search : list P) (pts : list P) (v : Z)
    (uv : uvs) (nuv : Z) (rel : list (Z * bool)) : res (uvs * Z * list (Z * bool)) :=
  match pts with
  | [] => Ok (uv, nuv, rel)
  | p :: r =>
      do u <- idxz uv v;
      match u with
      | Some _ => missing_vertices ls search r (v + 1) uv nuv rel
      | None =>
          match neighbors p 0 search with
          | [] =>
              do uv' <- setz uv v (Some nuv);
              missing_vertices ls search r (v + 1) uv' (nuv + 1) rel
          | [w] =>
              do uv' <- setz uv v (Some w);
              missing_vertices ls search r (v + 1) uv' nuv (internal_lines uv' w 0 ls rel)
          | _ => Throw ExData
          end
      end
  end.
(** All the surfaces; the last component tells whether the surface is split (in 362-369) *)
Fixpoint missing_surfaces (ls : list Line) (search : list P) (ss : list LSurf) (uv : list uvs)
    (rels : list (list (Z * bool))) (nuv : Z) : res (list (uvs * list (Z * bool) * bool)) :=
  match ss, uv, rels with
  | s :: ss, u :: uv, rel :: rels =>
      do '(x, rel') <- missing_vertices ls search (ls_points s) 0 u nuv rel;
      let '(u', nuv') := x in
      do r <- missing_surfaces ls search ss uv rels nuv';
      Ok ((u', rel', negb (Nat.eqb (List.length rel') (List.length rel))) :: r)
  | _, _, _ => Ok []
  end.

(** ** build_corners (in 165-211) *)
Fixpoint find_corner (p : P) (k : Z) (cs : list P) : option Z :=
  match cs with [] => None | c :: r => if near p c then Some k else find_corner p (k + 1) r end.
Fixpoint build_corners (ss : list LSurf) (bstones : list (Z * Z)) (uv : list uvs) (cs : list P)
  : res (list uvs * list P) :=
  match bstones with
  | [] => Ok (uv, cs)
  | (k, v) :: r =>
      do s <- idxz ss k;
      do p <- idxz (ls_points s) v;
      do u <- idxz uv k;
      let '(c, cs') := match find_corner p 0 cs with Some c => (c, cs) | None => (lenz cs, cs ++ [p]) end in
      do u' <- setz u v (Some c);
      do uv' <- setz uv k u';
      build_corners ss r uv' cs'
  end.

(** build_corners and build_lines (in 301-307): the corners, the lines and for each surface its
    unique vertices, its lines (line, internal) and whether it is split. [bstones] and [borders]
    are those read (MlModel), with the surface they fall in and local vertices (in 173-181,
    222-238). *)
Definition build_corners_lines (ss : list LSurf) (bstones : list (Z * Z)) (borders : list (Z * edge))
  : res (list P * list Line * list (uvs * list (Z * bool) * bool)) :=
  do '(uv, cs) <- build_corners ss bstones (map (fun s => map (fun _ => None) (ls_points s)) ss) [];
  do '(st, found) <- create_lines ss uv ([], lenz cs) borders;
  let '(ls, nuv) := st in
  do '(uv', rels) <- relate_surfaces ls found 0 uv;
  do search <- search_points ls nuv;
  do r <- missing_surfaces ls search ss uv' rels nuv;
  Ok (cs, ls, r).
End Lines.
