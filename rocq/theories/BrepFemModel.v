(** * FEM export of a BRep (model/internal/brep_fem_output.cpp).
    convert_brep_into_solid (OpenGeode) is represented by its result: a solid and, for each polygon of a surface, edge of a
    line, polyhedron or vertex of a block, its images in the solid.  The solid is then given to the FEM writer (FemModel.v).
    Not modelled: the creation of directories (84-89, done for the constant path [filename], hence without effect). *)
From Coq Require Import ZArith List Lia Bool Ascii String.
From Verif Require Import Base Text FemModel.
Import ListNotations.
Local Open Scope string_scope.
Local Open Scope list_scope.
Local Open Scope Z_scope.

Section BrepFem.
Context (V : FemVal).
(** The value -1.0. *)
Variable minus_one : val V.

(** A surface (or a line): its name, its polygon (edge) attributes, the facets (edges) of the solid of each polygon (edge). *)
Record bcomp := mkBcomp { q_name : option bytes; q_attrs : list (bytes * list (val V)); q_images : list (list Z) }.
(** A block: its name, the text of its uuid, its polyhedron attributes, the polyhedra of the solid of each polyhedron, the vertex of
    the solid of each vertex.  [pa_number]: the type of the values is double or float. *)
Record pattr := mkPattr { pa_name : bytes; pa_transferable : bool; pa_number : bool; pa_vals : list (val V) }.
Record bblock := mkBblock { l_name : option bytes; l_uuid : bytes; l_attrs : list pattr; l_images : list (list Z); l_vertices : list Z }.
Record brep := mkBrep { r_surfaces : list bcomp; r_lines : list bcomp; r_blocks : list bblock }.

Fixpoint assoc {A} (n : bytes) (l : list (bytes * A)) : option A :=
  match l with [] => None | (m, a) :: r => if beq m n then Some a else assoc n r end.
(** ** Facets and edges *)
Definition cells_state : Type := list (val V) * list bytes.
(** One facet (137-147) or edge (202-212). *)
Definition paint_cell (v : val V) (name : option bytes) (st : cells_state) (f : Z) : res cells_state :=
  do vals <- setz (fst st) f v;
  match name with
  | Some n => do names <- setz (snd st) f n; Ok (vals, names)
  | None => Ok (vals, snd st)
  end.
(** One surface (119-148) or line (184-213). *)
Definition paint_component (attribute : bytes) (st : cells_state) (c : bcomp) : res cells_state :=
  match assoc attribute (q_attrs c) with
  | None => Ok st
  | Some vs =>
      foldM (fun st (e : Z * list Z) => do v <- idxz vs (fst e); foldM (paint_cell v (q_name c)) (snd e) st)
        (enumerate (q_images c)) st
  end.
(** The attributes of the facets or edges of the solid that matter: the main one, the conductivity, the names. *)
Record painted := mkPainted { p_main : option (list (val V)); p_cond : option (list (val V)); p_names : option (list bytes) }.
Definition get_or {A} (n : nat) (a : A) (o : option (list A)) : list A := match o with Some l => l | None => repeat a n end.
(** paint_facets_attribute (104-149), paint_line_attribute (169-214) for the main attribute and for the conductivity. *)
Definition paint_main (n : nat) (main : bytes) (cs : list bcomp) (p : painted) : res painted :=
  do '(vals, names) <- foldM (paint_component main) cs (get_or n minus_one (p_main p), get_or n (lit "No_name") (p_names p));
  Ok (mkPainted (Some vals) (p_cond p) (Some names)).
Definition paint_cond (n : nat) (cs : list bcomp) (p : painted) : res painted :=
  do '(vals, names) <- foldM (paint_component CONDUCTIVITY) cs (get_or n minus_one (p_cond p), get_or n (lit "No_name") (p_names p));
  Ok (mkPainted (p_main p) (Some vals) (Some names)).
(** paint_surface_infos (151-167), paint_line_infos (216-232): [n] facets or edges.  The loop stops after its first step. *)
Definition paint_infos (n : nat) (main : bytes) (cs : list bcomp) : res painted :=
  let p := mkPainted None None None in
  do p <- match cs with
          | [] => Ok p
          | c :: _ => match assoc main (q_attrs c) with Some _ => paint_main n main cs p | None => Ok p end
          end;
  paint_cond n cs p.

(** ** Blocks *)
(** find_or_create_attribute on the polyhedra of the solid. *)
Definition find_fattr (n : bytes) (l : list (fattr V)) : option (fattr V) := find (fun a => beq (f_name V a) n) l.
Definition create_fattr (n : bytes) (dflt : val V) (nb : nat) (l : list (fattr V)) : list (fattr V) :=
  match find_fattr n l with Some _ => l | None => l ++ [mkFattr V n true (repeat dflt nb)] end.
Fixpoint set_fattr (n : bytes) (i : Z) (v : val V) (l : list (fattr V)) : res (list (fattr V)) :=
  match l with
  | [] => Ok []
  | a :: r => if beq (f_name V a) n then do vs <- setz (f_vals V a) i v; Ok (mkFattr V (f_name V a) (f_generic V a) vs :: r)
              else do r <- set_fattr n i v r; Ok (a :: r)
  end.
(** One attribute of one block (copy_tetrahedra_attributes_in_solid 294-331). *)
Definition copy_attr (nb : nat) (b : bblock) (l : list (fattr V)) (a : pattr) : res (list (fattr V)) :=
  if negb (pa_transferable a) || negb (pa_number a) then Ok l
  else
    do v0 <- idxz (pa_vals a) 0;
    foldM (fun l (e : Z * list Z) => do p <- front (snd e); do v <- idxz (pa_vals a) (fst e); set_fattr (pa_name a) p v l)
      (enumerate (l_images b)) (create_fattr (pa_name a) v0 nb l).
(** copy_tetrahedra_attributes_in_solid (287-333). *)
Definition copy_attrs (nb : nat) (bs : list bblock) (l : list (fattr V)) : res (list (fattr V)) :=
  foldM (fun l b => foldM (copy_attr nb b) (l_attrs b) l) bs l.
(** paint_polyhedron_block_id_attributes (234-259); find_or_create_attribute (238-241) throws when an attribute of numbers copied from
    the blocks already has the name. *)
Definition block_id_free (l : list (fattr V)) : res unit :=
  match find_fattr (lit "Block_ID_polyhedron") l with Some _ => Throw ExData | None => Ok tt end.
Definition paint_polyhedra (nb : nat) (bs : list bblock) : res (list bytes) :=
  foldM (fun names b => foldM (fun names ps => foldM (fun names p => match l_name b with Some n => setz names p n | None => Ok names end) ps names)
                          (l_images b) names) bs (repeat (lit "No_name") nb).
(** paint_vertices_block_id_attributes (261-285). *)
Definition block_label (b : bblock) : bytes := match l_name b with Some n => n | None => l_uuid b end.
Definition paint_vertices (nb : nat) (bs : list bblock) : res (list (list bytes)) :=
  foldM (fun names b => foldM (fun names v => do l <- idxz names v; setz names v (l ++ [block_label b])) (l_vertices b) names)
    bs (repeat [] nb).

(** ** The whole export (write_file 78-104).  [s0] is the solid of convert_brep_into_solid, [facets] and [edges] the vertices of
    its facets and edges. *)
Definition fem_solid (s0 : solid V) (facets edges : list (list Z)) (b : brep) : res (solid V) :=
  do pattrs <- copy_attrs (nb_polyhedra V s0) (r_blocks b) (s_pattrs V s0);
  do _ <- block_id_free pattrs;
  do poly <- paint_polyhedra (nb_polyhedra V s0) (r_blocks b);
  do verts <- paint_vertices (nb_vertices V s0) (r_blocks b);
  do fp <- paint_infos (List.length facets) APERTURE (r_surfaces b);
  do ep <- paint_infos (List.length edges) CONDUIT_AREA (r_lines b);
  Ok (mkSolid V (s_points V s0) (s_tetras V s0)
        (s_vattrs V s0 ++ [mkFattr V "Block_ID_vertex" false []])
        (pattrs ++ [mkFattr V "Block_ID_polyhedron" false []])
        (Some verts) (Some poly)
        (Some (mkFeatIn V facets (p_main fp) (p_cond fp))) (Some (mkFeatIn V edges (p_main ep) (p_cond ep)))).
Definition write_brep_fem (s0 : solid V) (facets edges : list (list Z)) (b : brep) : res bytes :=
  do s <- fem_solid s0 facets edges b; write_fem V s.
(** is_saveable (355-367): every unique vertex is on a block.  [uvs]: the blocks of each unique vertex. *)
Definition fem_saveable (uvs : list (list Z)) : bool := forallb (fun l => match l with [] => false | _ => true end) uvs.
End BrepFem.
