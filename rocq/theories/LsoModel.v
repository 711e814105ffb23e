(** * Model of model/internal/lso_output.cpp ("out") and lso_input.cpp ("in"): the
    GOCAD LightTSolid format of structural models.

    The model classes, their builders and the relationship graph belong to
    OpenGeode and are not in /repo.  A model is given by what the writer asks of it and
    the reader returns what it stores in it.  Not modelled here: build_model_boundaries
    (OpenGeode), build_corners / build_lines (see LsoLines.v), the splitting of
    surfaces (OpenGeode), the adjacencies (functions of the cells), the log messages. *)
From Coq Require Import ZArith List Lia Bool Ascii String.
From Verif Require Import Base Text GocadModel MeshModel TsModel.
Import ListNotations.
Local Open Scope string_scope.
Local Open Scope list_scope.
Local Open Scope Z_scope.

Notation quad := (Z * Z * Z * Z)%type.

(** ** What the writer sees *)

(** A block: its uuid (only its order matters), [name().value_or( id().string() )],
    the points and the tetrahedra of its mesh, the unique vertex of each
    of its vertices, its boundary surfaces in the order of [model.boundaries]. *)
Record LBlock (F : Num) := mkLBlock {
  k_id : Z;
  k_name : bytes;
  k_points : list (point F);
  k_tets : list quad;
  k_uv : list Z;
  k_bounds : list Z
}.
Arguments mkLBlock {F}. Arguments k_id {F}. Arguments k_name {F}. Arguments k_points {F}.
Arguments k_tets {F}. Arguments k_uv {F}. Arguments k_bounds {F}.
(** A surface: its uuid, its triangles, the unique vertex of each of its vertices. *)
Record LSurfW := mkLSurfW { f_id : Z; f_tris : list tri; f_uv : list Z }.
(** A horizon, fault or model boundary: [name().value_or( id().string() )] and its items. *)
Record LColl := mkLColl { g_name : bytes; g_items : list Z }.
(** [l_uv] gives for each unique vertex its component mesh vertices of type Block,
    in order, as (uuid of the block, vertex) (out 214-224). *)
Record LModel (F : Num) := mkLModel {
  l_title : option bytes;
  l_uv : list (list (Z * Z));
  l_blocks : list (LBlock F);
  l_surfs : list LSurfW;
  l_horizons : list LColl;
  l_faults : list LColl;
  l_mbounds : list LColl
}.
Arguments mkLModel {F}. Arguments l_title {F}. Arguments l_uv {F}. Arguments l_blocks {F}.
Arguments l_surfs {F}. Arguments l_horizons {F}. Arguments l_faults {F}. Arguments l_mbounds {F}.

(** [model.block( id )], [model.surface( id )]: the id must exist. *)
Definition block_of {F} (m : LModel F) (id : Z) : res (LBlock F) :=
  match find (fun b => k_id b =? id) (l_blocks m) with Some b => Ok b | None => UB end.
Definition lsurf_of {F} (m : LModel F) (id : Z) : res LSurfW :=
  match find (fun s => f_id s =? id) (l_surfs m) with Some s => Ok s | None => UB end.

(** ** Writer *)

(** first_block (out 254-270): position of the smallest uuid, the first one when it
    occurs several times.  [front()] of an empty list is undefined. *)
Fixpoint first_from (best : nat) (best_id : Z) (i : nat) (l : list (Z * Z)) : nat :=
  match l with
  | [] => best
  | (b, _) :: r => if b <? best_id then first_from i b (S i) r else first_from best best_id (S i) r
  end.
Definition first_block (l : list (Z * Z)) : res nat :=
  match l with
  | [] => UB
  | (b, _) :: r => Ok (first_from 0 b 1 r)
  end.

(** A row of [vertices_]: the number of each vertex of a block.  [emplace] does not
    replace: with several entries of a vertex the first one is found. *)
Notation row := (list ((Z * Z) * Z)).
Definition same_mv (a b : Z * Z) : bool := (fst a =? fst b) && (snd a =? snd b).
Definition row_at (r : row) (mv : Z * Z) : res Z :=
  match find (fun e => same_mv (fst e) mv) r with Some e => Ok (snd e) | None => Throw ExOutOfRange end.

(** The numbers given to the vertices other than the first one (out 238-247). *)
Fixpoint other_numbers (nb : Z) (l : list (Z * Z)) : row :=
  match l with
  | [] => []
  | mv :: r => (mv, add32 nb 1) :: other_numbers (add32 nb 1) r
  end.
Fixpoint remove_nth {A} (i : nat) (l : list A) : list A :=
  match l, i with
  | [], _ => []
  | _ :: r, O => r
  | x :: r, S j => x :: remove_nth j r
  end.

(** The loop on the unique vertices (out 213-248); [v] is the current unique vertex,
    [nb] the current value of [nb_vertices].  Returns the VRTX lines, the rows and
    the atoms. *)
Fixpoint write_uvs {F} (m : LModel F) (v nb : Z) (uvs : list (list (Z * Z)))
  : res (list bytes * list row * list Z) :=
  match uvs with
  | [] => Ok ([], [], [])
  | mvs :: r =>
      do first <- first_block mvs;
      do mv <- idx mvs first;
      do b <- block_of m (fst mv);
      do p <- idxz (k_points b) (snd mv);
      let others := remove_nth first mvs in
      let rw := (mv, add32 v 1) :: other_numbers nb others in
      do '(ls, rws, atoms) <- write_uvs m (v + 1) (wrap32 (nb + lenz others)) r;
      Ok ((lit "VRTX " ++ show (add32 v 1) ++ SP :: point_string p) :: ls,
          rw :: rws,
          map (fun _ => add32 v 1) others ++ atoms)
  end.
(** The SHAREDVRTX lines (out 249-252). *)
Fixpoint shared_lines (count : Z) (atoms : list Z) : list bytes :=
  match atoms with
  | [] => []
  | a :: r => (lit "SHAREDVRTX " ++ show count ++ SP :: show a) :: shared_lines (add32 count 1) r
  end.
(** write_vertices (out 207-252): the lines and the table [vertices_]. *)
Definition write_vertices {F} (m : LModel F) : res (list bytes * list row) :=
  let nb := lenz (l_uv m) in
  do '(ls, rws, atoms) <- write_uvs m 0 nb (l_uv m);
  Ok (ls ++ shared_lines (add32 nb 1) atoms, rws).

(** One number of a TETRA line (out 193-200). *)
Definition corner_number {F} (rws : list row) (b : LBlock F) (v : Z) : res Z :=
  do u <- idxz (k_uv b) v;
  do r <- atz rws u;
  row_at r (k_id b, v).
(** write_tetrahedron (out 182-205). *)
Definition tetra_line {F} (rws : list row) (b : LBlock F) (t : quad) : res (list bytes) :=
  let '(t0, t1, t2, t3) := t in
  do n0 <- corner_number rws b t0;
  do n1 <- corner_number rws b t1;
  do n2 <- corner_number rws b t2;
  do n3 <- corner_number rws b t3;
  Ok [lit "TETRA" ++ spaced (map show [n0; n1; n2; n3]);
      lit "# CTETRA " ++ k_name b ++ lit " none none none none"].
Definition write_tetrahedra {F} (rws : list row) (m : LModel F) : res (list bytes) :=
  do ls <- mapM (fun b => mapM (tetra_line rws b) (k_tets b)) (l_blocks m);
  Ok (List.concat (List.concat ls)).

(** write_triangle (out 170-180). *)
Definition tri_text (s : LSurfW) (t : tri) : res bytes :=
  let '(a, b, c) := t in
  do ua <- idxz (f_uv s) a;
  do ub <- idxz (f_uv s) b;
  do uc <- idxz (f_uv s) c;
  Ok (spaced (map show [add32 ua 1; add32 ub 1; add32 uc 1])).
(** The lines of one surface (out 151-163). *)
Definition tface_lines (s : LSurfW) (n : Z) : res (list bytes) :=
  do t0 <- idx (f_tris s) 0;
  do key <- tri_text s t0;
  do ts <- mapM (tri_text s) (f_tris s);
  Ok ((lit "TFACE " ++ show n) :: (lit "KEYVERTICES" ++ key) ::
      map (fun t => lit "TRGL" ++ t) ts).
(** [exported_surfaces_]: uuid and number. *)
Notation ex_table := (list (Z * Z)).
Definition is_exported (ex : ex_table) (id : Z) : bool := existsb (fun e => fst e =? id) ex.
(** The items of a component (out 145-164). *)
Fixpoint write_items {F} (m : LModel F) (items : list Z) (ex : ex_table) (n : Z)
  : res (list bytes * ex_table * Z) :=
  match items with
  | [] => Ok ([], ex, n)
  | i :: r =>
      if is_exported ex i then write_items m r ex n
      else
        do s <- lsurf_of m i;
        do ls <- tface_lines s n;
        do '(ls', ex', n') <- write_items m r (ex ++ [(i, n)]) (add32 n 1);
        Ok (ls ++ ls', ex', n')
  end.
(** write_surfaces (out 124-168). *)
Fixpoint write_surfaces {F} (m : LModel F) (cs : list LColl) (ex : ex_table) (n : Z)
  : res (list bytes * ex_table * Z) :=
  match cs with
  | [] => Ok ([], ex, n)
  | c :: r =>
      if forallb (is_exported ex) (g_items c) then write_surfaces m r ex n
      else
        do '(ls, ex1, n1) <- write_items m (g_items c) ex n;
        do '(ls', ex2, n2) <- write_surfaces m r ex1 n1;
        Ok (((lit "SURFACE " ++ g_name c) :: ls) ++ ls', ex2, n2)
  end.

(** write_regions (out 104-122); [sides] is [sides_.regions_surface_sides], computed by
    determine_surface_to_regions_sides (SignsModel.v). *)
Definition region_line_of {F} (sides : Z -> Z -> option bool) (ex : ex_table) (b : LBlock F)
  : res bytes :=
  do s <- front (k_bounds b);
  do side <- match sides (k_id b) s with Some x => Ok x | None => Throw ExOutOfRange end;
  do n <- match find (fun e => fst e =? s) ex with
          | Some e => Ok (snd e) | None => Throw ExOutOfRange end;
  Ok (lit "MODEL_REGION " ++ k_name b ++ SP :: (if side : bool then lit "+" else lit "-") ++ show n).

(** write_file (out 79-94). *)
Definition lso_lines {F} (m : LModel F) (sides : Z -> Z -> option bool) : res (list bytes) :=
  do '(vls, rws) <- write_vertices m;
  do tls <- write_tetrahedra rws m;
  do '(sl1, ex1, n1) <- write_surfaces m (l_horizons m) [] 1;
  do '(sl2, ex2, n2) <- write_surfaces m (l_faults m) ex1 n1;
  do '(sl3, ex3, _) <- write_surfaces m (l_mbounds m) ex2 n2;
  do rls <- mapM (region_line_of sides ex3) (l_blocks m);
  Ok ([lit "GOCAD LightTSolid 1"] ++ write_header (l_title m) ++ write_CRS default_crs ++
      vls ++ tls ++ [lit "MODEL"] ++ sl1 ++ sl2 ++ sl3 ++ rls ++ [lit "END"]).
Definition write_lso {F} (m : LModel F) (sides : Z -> Z -> option bool) : res bytes :=
  rmap unlines (lso_lines m sides).

(** is_saveable (out 295-319), the mesh types apart. *)
Definition lso_saveable {F} (m : LModel F) : bool :=
  forallb (fun s => negb (lenz (f_tris s) =? 0)) (l_surfs m) &&
  forallb (fun b => negb (lenz (k_tets b) =? 0)) (l_blocks m).

(** ** Reader *)

(** The solid under construction: points and unique vertices of the vertices,
    [vertex_mapping_] (the vertices of each unique vertex), the values of the vertex
    properties. *)
Record SolidV (F : Num) := mkSolidV {
  sv_points : list (point F);
  sv_uid : list Z;
  sv_map : list (list Z);
  sv_vals : list (list (num F))
}.
Arguments mkSolidV {F}. Arguments sv_points {F}. Arguments sv_uid {F}.
Arguments sv_map {F}. Arguments sv_vals {F}.

Section Reader.
Variable F : Num.
Variable crs : CRS.
Variables vprops tprops : PropHeader (num F).

(** One vertex line (in 131-152): read_shared_point (158-164), read_point (166-178). *)
Definition lso_vertex (sv : SolidV F) (line : bytes) : res (SolidV F) :=
  let tokens := string_split line in
  if starts_with line "SHARED" then
    do u <- tok_index 1 tokens 2;
    do p <- idxz (sv_points sv) u;
    do vals <- read_properties F (p_names vprops) (p_esizes vprops) (sv_vals sv) tokens 3;
    do l <- idxz (sv_map sv) u;
    do mp <- setz (sv_map sv) u (l ++ [lenz (sv_points sv)]);
    Ok (mkSolidV (sv_points sv ++ [p]) (sv_uid sv ++ [u]) mp vals)
  else
    do p <- vrtx_point F crs tokens;
    do vals <- read_properties F (p_names vprops) (p_esizes vprops) (sv_vals sv) tokens 5;
    Ok (mkSolidV (sv_points sv ++ [p]) (sv_uid sv ++ [lenz (sv_map sv)])
                 (sv_map sv ++ [[lenz (sv_points sv)]]) vals).
(** The loop of read_vertices (in 131-154): [line] is treated, then the next ones as long as
    they contain "VRTX".  Returns the solid, the last line read and the stream. *)
Fixpoint lso_vertices (sv : SolidV F) (line : bytes) (b : bool) (ls : list bytes)
  : res (SolidV F * bytes * istream) :=
  do sv' <- lso_vertex sv line;
  match ls with
  | [] => Ok (sv', if b then [] else line, mkStream [] false)
  | l :: r => if contains l "VRTX" then lso_vertices sv' l b r else Ok (sv', l, mkStream r b)
  end.

(** read_vertex_region_indicators (in 180-188) and read_tetrahedra_region_indicators
    (in 214-222). *)
Definition skip_indicators (kind : bytes) (line : bytes) (s : istream) : res (bytes * istream) :=
  if starts_with line (lit "BEGIN_" ++ kind ++ lit "_REGION_INDICATORS") then
    do '(l, s1) <- goto_keyword (lit "END_" ++ kind ++ lit "_REGION_INDICATORS") s;
    let '(_, line', s2) := getline line s1 in Ok (line', s2)
  else Ok (line, s).

(** The tetrahedra: vertices, name of the block, values of the properties. *)
Record SolidT := mkSolidT {
  st_tets : list (quad * bytes);
  st_vals : list (list (num F))
}.
(** One TETRA line and the line after it (in 194-208).  [n] is the number of points of the
    solid: create_tetrahedron needs existing vertices. *)
Definition lso_tetra (n : Z) (st : SolidT) (line line2 : bytes) : res SolidT :=
  let tokens := string_split line in
  do a <- tok_index 1 tokens 1;
  do b <- tok_index 1 tokens 2;
  do c <- tok_index 1 tokens 3;
  do d <- tok_index 1 tokens 4;
  if (a <? n) && (b <? n) && (c <? n) && (d <? n) then
    do vals <- read_properties F (p_names tprops) (p_esizes tprops) (st_vals st) tokens 5;
    do name <- idx (string_split line2) 2;
    Ok (mkSolidT (st_tets st ++ [((a, b, c, d), name)]) vals)
  else UB.
(** The loop of read_tetrahedra (in 190-212). *)
Fixpoint lso_tetras (n : Z) (st : SolidT) (line : bytes) (b : bool) (ls : list bytes)
  : res (SolidT * bytes * istream) :=
  match ls with
  | [] =>
      let line2 := if b then [] else line in
      do st' <- lso_tetra n st line line2; Ok (st', line2, mkStream [] false)
  | line2 :: r =>
      do st' <- lso_tetra n st line line2;
      match r with
      | [] => Ok (st', if b then [] else line2, mkStream [] false)
      | l :: r' => if starts_with l "TETRA" then lso_tetras n st' l b r' else Ok (st', l, mkStream r' b)
      end
  end.

(** ** Surfaces *)

(** Renumbering of vertices by first use (in 283-299 and 369-391): [us_seen] the vertices
    already met, [us_points], [us_uv] the points created and their unique vertices. *)
Record Used := mkUsed { us_seen : list Z; us_points : list (point F); us_uv : list Z }.
Definition no_vertex : Used := mkUsed [] [] [].
Fixpoint find_pos (v : Z) (i : Z) (l : list Z) : option Z :=
  match l with
  | [] => None
  | x :: r => if x =? v then Some i else find_pos v (i + 1) r
  end.
Definition use_vertex (sv : SolidV F) (us : Used) (v : Z) : res (Used * Z) :=
  match find_pos v 0 (us_seen us) with
  | Some i => Ok (us, i)
  | None =>
      do p <- idxz (sv_points sv) v;
      do u <- idxz (sv_uid sv) v;
      Ok (mkUsed (us_seen us ++ [v]) (us_points us ++ [p]) (us_uv us ++ [u]), lenz (us_seen us))
  end.

(** Facets are identified by their vertices, whatever the order
    ([facet_from_vertices] of OpenGeode). *)
Definition sort3 (t : tri) : tri :=
  let '(a, b, c) := t in
  let '(a, b) := if b <? a then (b, a) else (a, b) in
  let '(b, c) := if c <? b then (c, b) else (b, c) in
  let '(a, b) := if b <? a then (b, a) else (a, b) in
  (a, b, c).
Definition tri_eqb (s t : tri) : bool :=
  let '(a, b, c) := s in let '(d, e, f) := t in (a =? d) && (b =? e) && (c =? f).
Definition facets_of (t : quad) : list tri :=
  let '(a, b, c, d) := t in [(b, c, d); (a, c, d); (a, b, d); (a, b, c)].
Definition is_facet (tets : list (quad * bytes)) (f : tri) : bool :=
  existsb (fun t => existsb (fun g => tri_eqb (sort3 g) (sort3 f)) (facets_of (fst t))) tets.

(** facets_from_vertices (in 319-339). *)
Definition facets_from_vertices (sv : SolidV F) (tets : list (quad * bytes)) (t : tri)
  : res (list tri) :=
  let '(a, b, c) := t in
  do la <- idxz (sv_map sv) a;
  do lb <- idxz (sv_map sv) b;
  do lc <- idxz (sv_map sv) c;
  Ok (map sort3 (filter (is_facet tets)
        (flat_map (fun x => flat_map (fun y => map (fun z => (x, y, z)) lc) lb) la))).

(** A surface of the loaded model: name of its horizon, points, triangles, unique vertices. *)
Record LSurfR := mkLSurfR {
  h_name : bytes;
  h_points : list (point F);
  h_tris : list tri;
  h_uv : list Z
}.
(** [facet_id_]: the surface of each facet, the last one set comes first. *)
Notation facet_map := (list (tri * Z)).
Definition facet_surface (fm : facet_map) (f : tri) : option Z :=
  option_map snd (find (fun e => tri_eqb (fst e) (sort3 f)) fm).
(** State of read_triangles: vertices, triangles, facets, [inspect_required_]. *)
Record TriSt := mkTriSt { ts_used : Used; ts_tris : list tri; ts_facets : facet_map; ts_inspect : bool }.
(** One TRGL line (in 276-314) of surface [s]. *)
Definition lso_trgl (sv : SolidV F) (tets : list (quad * bytes)) (s : Z) (st : TriSt) (line : bytes)
  : res TriSt :=
  let tokens := string_split line in
  do a <- tok_index 1 tokens 1;
  do '(us1, ia) <- use_vertex sv (ts_used st) a;
  do b <- tok_index 1 tokens 2;
  do '(us2, ib) <- use_vertex sv us1 b;
  do c <- tok_index 1 tokens 3;
  do '(us3, ic) <- use_vertex sv us2 c;
  do fs <- facets_from_vertices sv tets (a, b, c);
  Ok (mkTriSt us3 (ts_tris st ++ [(ia, ib, ic)])
        (rev (map (fun f => (f, s)) fs) ++ ts_facets st)
        (ts_inspect st || match fs with [] => true | _ => false end)).
(** The loop of read_triangles (in 273-315): [line] is the last line read. *)
Fixpoint lso_triangles (sv : SolidV F) (tets : list (quad * bytes)) (s : Z) (st : TriSt)
    (line : bytes) (b : bool) (ls : list bytes) : res (TriSt * bytes * istream) :=
  match ls with
  | [] => Ok (st, if b then [] else line, mkStream [] false)
  | l :: r =>
      if starts_with l "TRGL"
      then do st' <- lso_trgl sv tets s st l; lso_triangles sv tets s st' l b r
      else Ok (st, l, mkStream r b)
  end.

(** State of read_surfaces: surfaces, facets, inspect_required_. *)
Record SurfSt := mkSurfSt { ss_surfs : list LSurfR; ss_facets : facet_map; ss_inspect : bool }.
(** The loop of read_tfaces (in 248-262).  Each turn reads at least one line, unless the stream
    is exhausted and [line_] keeps its content, in which case the loop never ends: the
    fuel exceeds the number of lines left. *)
Fixpoint lso_tfaces (fuel : nat) (sv : SolidV F) (tets : list (quad * bytes)) (name : bytes)
    (st : SurfSt) (line : bytes) (s : istream) : res (SurfSt * bytes * istream) :=
  match fuel with
  | O => Hang
  | S f =>
      if starts_with line "TFACE" then
        let '(_, line1, s1) := getline line s in
        do '(ts, line2, s2) <- lso_triangles sv tets (lenz (ss_surfs st))
              (mkTriSt no_vertex [] (ss_facets st) (ss_inspect st)) line1 (nl s1) (pending s1);
        lso_tfaces f sv tets name
          (mkSurfSt (ss_surfs st ++ [mkLSurfR name (us_points (ts_used ts)) (ts_tris ts) (us_uv (ts_used ts))])
                    (ts_facets ts) (ts_inspect ts))
          line2 s2
      else Ok (st, line, s)
  end.
(** The loop of read_surfaces (in 235-246) and the first line of read_tfaces.  Returns also the
    horizons: name and number of surfaces before and after. *)
Notation horizons := (list (bytes * Z * Z)).
Fixpoint lso_surfaces (fuel : nat) (sv : SolidV F) (tets : list (quad * bytes))
    (st : SurfSt) (hs : horizons) (line : bytes) (s : istream)
  : res (SurfSt * horizons * bytes * istream) :=
  match fuel with
  | O => Hang
  | S f =>
      if starts_with line "SURFACE" then
        let name := read_name (tl (string_split line)) in
        let '(_, line1, s1) := getline line s in
        do '(st', line2, s2) <- lso_tfaces (S (S (List.length (pending s1)))) sv tets name st line1 s1;
        lso_surfaces f sv tets st'
          (hs ++ [(name, lenz (ss_surfs st), lenz (ss_surfs st'))]) line2 s2
      else Ok (st, hs, line, s)
  end.

(** ** Blocks *)

(** A block of the loaded model; the attributes of its vertices and of its tetrahedra; its
    boundary and internal surfaces. *)
Record LBlockR := mkLBlockR {
  r_name : bytes;
  r_points : list (point F);
  r_tets : list quad;
  r_uv : list Z;
  r_vattrs : list (bytes * attr (num F));
  r_tattrs : list (bytes * attr (num F));
  r_bounds : list Z;
  r_internals : list Z
}.
Definition use_tet (sv : SolidV F) (us : Used) (t : quad) : res (Used * quad) :=
  let '(a, b, c, d) := t in
  do '(us1, ia) <- use_vertex sv us a;
  do '(us2, ib) <- use_vertex sv us1 b;
  do '(us3, ic) <- use_vertex sv us2 c;
  do '(us4, id) <- use_vertex sv us3 d;
  Ok (us4, (ia, ib, ic, id)).
Fixpoint use_tets (sv : SolidV F) (us : Used) (ts : list quad) : res (Used * list quad) :=
  match ts with
  | [] => Ok (us, [])
  | t :: r =>
      do '(us1, t') <- use_tet sv us t;
      do '(us2, r') <- use_tets sv us1 r;
      Ok (us2, t' :: r')
  end.
(** The tetrahedra of a block (in 367-371 and 414-418). *)
Definition block_tets (tets : list (quad * bytes)) (name : bytes) : list quad :=
  map fst (filter (fun t => beq (snd t) name) tets).

(** create_attributes (gocad_common.cpp 489-541) on an attribute manager of [count] elements
    whose attributes are [l]; only the manager of the vertices has the attribute "points". *)
Definition find_or_create_in {V} (vertices : bool) (count : nat) (l : list (bytes * attr V))
    (name : bytes) (esize : Z) (d : list V) : res (attr V) :=
  if vertices && beq name "points" then Throw ExData
  else
    let fresh := mkAttr (attr_type esize) d (repeat d count) in
    match find_attr name l with
    | Some a => if a_type a =? attr_type esize then Ok a else Throw ExData
    | None => Ok fresh
    end.
Fixpoint make_attributes {V} (vertices : bool) (count : nat) (names : list bytes) (esizes : list Z)
    (ndvs : list V) (values : list (list V)) (nb : nat) (mapping : list nat)
    (l : list (bytes * attr V)) : res (list (bytes * attr V)) :=
  match names with
  | [] => Ok l
  | n :: ns =>
      match esizes, ndvs, values with
      | e :: es, d :: ds, v :: vs =>
          let dflt := repeat d (Z.to_nat e) in
          do a <- find_or_create_in vertices count l n e dflt;
          do vals <- fill_attr v e dflt mapping 0 nb (a_vals a);
          make_attributes vertices count ns es ds vs nb mapping
            (replace_attr n (mkAttr (a_type a) (a_def a) vals) l)
      | _, _, _ => UB
      end
  end.

(** find_block_relations (in 408-441): number of facets of the block's tetrahedra on surface
    [s]; build_block_relations (in 443-469): that number divided by the number of triangles
    decides.  Only surfaces found at least once are related. *)
Definition facets_on (fm : facet_map) (ts : list quad) (s : Z) : Z :=
  lenz (filter (fun f => match facet_surface fm f with Some x => x =? s | None => false end)
               (flat_map facets_of ts)).
Definition relation_count (fm : facet_map) (ts : list quad) (s : Z) (sf : LSurfR) : Z :=
  facets_on fm ts s / lenz (h_tris sf).
Definition related (fm : facet_map) (ts : list quad) (surfs : list LSurfR) (k : Z) : list Z :=
  map fst (filter (fun e => (0 <? facets_on fm ts (fst e)) && (relation_count fm ts (fst e) (snd e) =? k))
                  (combine (rangez 0 (List.length surfs)) surfs)).
Definition not_conformal (fm : facet_map) (ts : list quad) (surfs : list LSurfR) : bool :=
  existsb (fun e => (0 <? facets_on fm ts (fst e)) &&
                    negb ((relation_count fm ts (fst e) (snd e) =? 1) || (relation_count fm ts (fst e) (snd e) =? 2)))
          (combine (rangez 0 (List.length surfs)) surfs).

(** build_block_mesh (in 356-406) and build_block_relations (in 443-469).  Both calls of
    create_attributes get the number of vertices and the mapping of the vertices. *)
Definition build_block (sv : SolidV F) (st : SolidT) (ss : SurfSt) (name : bytes)
  : res (LBlockR * bool) :=
  let ts := block_tets (st_tets st) name in
  do '(us, tets) <- use_tets sv no_vertex ts;
  let nbv := List.length (us_points us) in
  let mapping := map Z.to_nat (us_seen us) in
  do va <- make_attributes true nbv (p_names vprops) (p_esizes vprops) (p_ndv vprops)
             (sv_vals sv) nbv mapping [];
  do ta <- make_attributes false (List.length tets) (p_names tprops) (p_esizes tprops) (p_ndv tprops)
             (st_vals st) nbv mapping [];
  Ok (mkLBlockR name (us_points us) tets (us_uv us) va ta
        (related (ss_facets ss) ts (ss_surfs ss) 1) (related (ss_facets ss) ts (ss_surfs ss) 2),
      not_conformal (ss_facets ss) ts (ss_surfs ss)).
(** The loop of read_blocks (in 341-354). *)
Fixpoint lso_blocks (fuel : nat) (sv : SolidV F) (st : SolidT) (ss : SurfSt) (line : bytes) (s : istream)
  : res (list LBlockR * bool) :=
  match fuel with
  | O => Hang
  | S f =>
      if starts_with line "MODEL_REGION" then
        do name <- idx (string_split line) 1;
        do '(b, bad) <- build_block sv st ss name;
        let '(_, line1, s1) := getline line s in
        do '(bs, bad') <- lso_blocks f sv st ss line1 s1;
        Ok (b :: bs, bad || bad')
      else Ok ([], false)
  end.

(** The loaded model: number of unique vertices, surfaces, horizons (name, first surface, end),
    blocks, [inspect_required_]. *)
Record LsoIn := mkLsoIn {
  i_title : option bytes;
  i_nuv : Z;
  i_surfs : list LSurfR;
  i_horizons : list (bytes * Z * Z);
  i_blocks : list LBlockR;
  i_inspect : bool
}.
(** read_file from read_vertices to read_blocks (in 112-118). *)
Definition lso_body (title : option bytes) (s : istream) : res LsoIn :=
  do '(line, s1) <- goto_keywords (map lit ["VRTX"; "PVRTX"]) s;
  do '(sv, line2, s2) <- lso_vertices (mkSolidV [] [] [] (map (fun _ => []) (p_names vprops)))
                           line (nl s1) (pending s1);
  do '(line3, s3) <- skip_indicators "VERTEX" line2 s2;
  do '(st, line4, s4) <- lso_tetras (lenz (sv_points sv)) (mkSolidT [] (map (fun _ => []) (p_names tprops)))
                           line3 (nl s3) (pending s3);
  do '(line5, s5) <- skip_indicators "TETRA" line4 s4;
  do '(line5', s6) <- (if starts_with line5 "MODEL" then Ok (line5, s5)
                       else do '(_, s) <- goto_keyword "MODEL" s5; Ok (line5, s));
  let '(_, line6, s7) := getline line5' s6 in
  do '(ss, hs, line7, s8) <- lso_surfaces (S (S (List.length (pending s7)))) sv (st_tets st)
                               (mkSurfSt [] [] false) [] line6 s7;
  do '(bs, bad) <- lso_blocks (S (S (List.length (pending s8)))) sv st ss line7 s8;
  Ok (mkLsoIn title (lenz (sv_map sv)) (ss_surfs ss) hs bs (ss_inspect ss || bad)).
End Reader.
Arguments mkSolidT {F}. Arguments st_tets {F}. Arguments st_vals {F}.
Arguments mkUsed {F}. Arguments us_seen {F}. Arguments us_points {F}. Arguments us_uv {F}. Arguments no_vertex {F}.
Arguments mkLSurfR {F}. Arguments h_name {F}. Arguments h_points {F}. Arguments h_tris {F}. Arguments h_uv {F}.
Arguments mkTriSt {F}. Arguments ts_used {F}. Arguments ts_tris {F}. Arguments ts_facets {F}. Arguments ts_inspect {F}.
Arguments mkSurfSt {F}. Arguments ss_surfs {F}. Arguments ss_facets {F}. Arguments ss_inspect {F}.
Arguments mkLBlockR {F}. Arguments r_name {F}. Arguments r_points {F}. Arguments r_tets {F}. Arguments r_uv {F}.
Arguments r_vattrs {F}. Arguments r_tattrs {F}. Arguments r_bounds {F}. Arguments r_internals {F}.
Arguments mkLsoIn {F}. Arguments i_title {F}. Arguments i_nuv {F}. Arguments i_surfs {F}.
Arguments i_horizons {F}. Arguments i_blocks {F}. Arguments i_inspect {F}.

(** read_file (in 90-124) up to read_blocks, on the content of the file. *)
Definition read_lso (F : Num) (text : bytes) : res (LsoIn F) :=
  match goto_if "GOCAD LightTSolid" (open_text text) with
  | (None, _) => Throw ExData
  | (Some _, s0) =>
      do '(title, s1) <- read_header s0;
      do '(crs, s2) <- read_CRS s1;
      do '(vprops, s3) <- read_prop_header F [] s2;
      do '(tprops, s4) <- read_prop_header F "TETRA_" s3;
      lso_body F crs vprops tprops title s4
  end.
