(** * The FEM (FEFLOW) writer of tetrahedral solids.
    Models /repo/src/geode/geosciences_io/mesh/fem_output.cpp. *)
From Coq Require Import ZArith List Lia Bool Ascii String.
From Verif Require Import Base Text.
Import ListNotations.
Local Open Scope string_scope.
Local Open Scope list_scope.
Local Open Scope Z_scope.

(** ** Id ranges *)

(** fem_output.cpp 60-69 ([append_value], first part): text of one run of consecutive numbers. *)
Definition range_text (s p : Z) : bytes :=
  if s =? p then show s else show s ++ "-"%char :: show p.
(** fem_output.cpp 70-80 ([append_value], second part).  The state is [current] and [results]. *)
Definition append_value (limit : Z) (st : bytes * list bytes) (s p : Z) : bytes * list bytes :=
  let '(current, results) := st in
  let tmp := range_text s p in
  let '(current, results) :=
    if limit <? Z.of_nat (List.length current) + Z.of_nat (List.length tmp) + 1
    then ([], results ++ [current]) else (current, results) in
  (match current with [] => tmp | _ => current ++ SP :: tmp end, results).
(** fem_output.cpp 82-92 (the loop): [prev + 1] is computed on 32 bits. *)
Fixpoint range_loop (limit : Z) (elements : list Z) (start prev : Z) (st : bytes * list bytes)
    : bytes * list bytes :=
  match elements with
  | [] => append_value limit st start prev
  | e :: r => if e =? add32 prev 1 then range_loop limit r start e st
              else range_loop limit r e e (append_value limit st start prev)
  end.
(** fem_output.cpp 47-98 ([format_range_chunks]). *)
Definition format_range_chunks (elements : list Z) (limit : Z) : list bytes :=
  match elements with
  | [] => []
  | e :: r =>
    let '(current, results) := range_loop limit r e e ([], []) in
    match current with [] => results | _ => results ++ [current] end
  end.
(** fem_output.cpp 45. *)
Definition CHUNK_SIZE : Z := 1500.

(** fem_output.cpp 100-103. *)
Definition add_spaces (n : nat) : bytes := repeat SP n.
(** Text followed by an end of line. *)
Definition line (t : bytes) : bytes := t ++ [LF].

(** ** Values

    The exported numbers are only compared, sorted and printed.  [veqb] is [==] (the key
    equality of the hash tables), [vneg] is [< 0.0], [vpos] is [> 0.0], [vfix] is
    [std::to_string( double )], [vos] is [operator<<], [vsort] is [std::sort]/[absl::c_sort], and
    [viter], [siter] are the (unspecified) iteration orders of [absl::flat_hash_map] with number
    and string keys. *)
Record FemVal := mkFemVal {
  val : Type;
  veqb : val -> val -> bool;
  vneg : val -> bool;
  vpos : val -> bool;
  vfix : val -> bytes;
  vos : val -> bytes;
  vsort : list val -> list val;
  viter : forall V, list (val * V) -> list (val * V);
  siter : forall V, list (bytes * V) -> list (bytes * V)
}.

(** ** Hash tables from keys to element lists *)
Section Tables.
Context {K : Type} (eqb : K -> K -> bool).
Definition table := list (K * list Z).
(** [map.contains( key )]. *)
Definition contains_key (k : K) (m : table) : bool := existsb (fun e => eqb k (fst e)) m.
(** [map[key].push_back( e )] on an existing key. *)
Fixpoint push_on (k : K) (e : Z) (m : table) : table :=
  match m with
  | [] => []
  | (k', es) :: r => if eqb k k' then (k', es ++ [e]) :: r else (k', es) :: push_on k e r
  end.
(** fem_output.cpp 256-266, and the same code at 366-377, 489-500, 519-531: push on the existing
    entry or create it. *)
Definition table_add (k : K) (e : Z) (m : table) : table :=
  if contains_key k m then push_on k e m else m ++ [(k, [e])].
(** [map[key]]: an absent key gives an empty list. *)
Fixpoint table_get (k : K) (m : table) : list Z :=
  match m with
  | [] => []
  | (k', es) :: r => if eqb k k' then es else table_get k r
  end.
End Tables.

Section Fem.
Context (V : FemVal).

(** An attribute: its name, whether it is convertible to a number ([is_genericable]) and one value
    per element.  Reading a value outside is undefined behaviour. *)
Record fattr := mkFattr { f_name : bytes; f_generic : bool; f_vals : list (val V) }.

(** What [solid_.facets()] / [solid_.edges()] provide to the writer: the vertices of each facet or
    edge, the values of the aperture (or conduit area) attribute when it exists, the values of
    the conductivity attribute when it exists. *)
Record features_in := mkFeatIn {
  fi_cells : list (list Z);
  fi_main : option (list (val V));
  fi_cond : option (list (val V))
}.
Record solid := mkSolid {
  s_points : list (val V * val V * val V);
  s_tetras : list (list Z);
  s_vattrs : list fattr;
  s_pattrs : list fattr;
  s_block_vertex : option (list (list bytes));  (** attribute Block_ID_vertex *)
  s_block_poly : option (list bytes);           (** attribute Block_ID_polyhedron *)
  s_facets : option features_in;                (** [None]: facets not enabled *)
  s_edges : option features_in
}.
Definition nb_vertices (s : solid) : nat := List.length (s_points s).
Definition nb_polyhedra (s : solid) : nat := List.length (s_tetras s).

(** fem_output.cpp 209-228 ([write_chunks]). *)
Definition write_chunks (elements : list Z) (text : bytes) (limit : Z) : list bytes :=
  map (fun c => lit "  " ++ text ++ lit "  " ++ c ++ add_spaces 1) (format_range_chunks elements limit).

(** fem_output.cpp 250-268 ([create_attribute_distribution]): always over the polyhedra. *)
Definition create_attribute_distribution (n : nat) (a : fattr) : res (table (K := val V)) :=
  foldM (fun m elem => do v <- idxz (f_vals a) elem; Ok (table_add (veqb V) v (add32 elem 1) m))
    (rangez 0 n) [].
(** fem_output.cpp 230-248 ([write_property]). *)
Definition property_lines (m : table (K := val V)) : list bytes :=
  flat_map (fun v => write_chunks (table_get (veqb V) v m) (vfix V v) CHUNK_SIZE)
    (vsort V (map fst (viter V _ m))).
Definition write_property (n : nat) (a : fattr) : res (list bytes) :=
  do m <- create_attribute_distribution n a;
  Ok (f_name a :: property_lines m).

(** fem_output.cpp 360-380 ([create_coord_dist]). *)
Definition coord (d : nat) (p : val V * val V * val V) : val V :=
  match d with O => fst (fst p) | 1%nat => snd (fst p) | _ => snd p end.
Fixpoint coord_dist (d : nat) (i : Z) (ps : list (val V * val V * val V)) (m : table (K := val V)) :=
  match ps with
  | [] => m
  | p :: r => coord_dist d (i + 1) r (table_add (veqb V) (coord d p) i m)
  end.
(** fem_output.cpp 382-406 ([write_one_coord_component_dist]). *)
Definition coord_line (m : table (K := val V)) (v : val V) : bytes :=
  lit "     " ++ vos V v ++ lit "  " ++
  flat_map (fun vertex => show (add32 vertex 1) ++ add_spaces 1) (table_get (veqb V) v m).
Definition write_coord_dist (name : bytes) (d : nat) (s : solid) : list bytes :=
  let m := coord_dist d 0 (s_points s) [] in
  name :: map (coord_line m) (vsort V (map fst (viter V _ m))).
(** fem_output.cpp 408-413 ([write_xyz_dist]). *)
Definition write_xyz_dist (s : solid) : list bytes :=
  write_coord_dist "X" 0 s ++ write_coord_dist "Y" 1 s ++ write_coord_dist "Z" 2 s.

(** fem_output.cpp 270-299 ([write_ref_nodal_dist]). *)
Definition vertex_exported (a : fattr) : bool := f_generic a && negb (beq (f_name a) "points").
Definition write_ref_nodal_dist (s : solid) : res (list bytes) :=
  let attributes := filter vertex_exported (s_vattrs s) in
  let nb := 3 + Z.of_nat (List.length attributes) in
  do blocks <- mapM (write_property (nb_polyhedra s)) attributes;
  Ok (lit "REF_DIS_I" :: (SP :: show nb ++ lit ", " ++ show (Z.of_nat (nb_vertices s)) ++ lit ", 0")
      :: write_xyz_dist s ++ List.concat blocks).

(** fem_output.cpp 415-438 ([write_ref_element_dist]): the announced number is the number of
    attributes minus 3, as an [int]. *)
Definition poly_exported (a : fattr) : bool :=
  f_generic a && negb (beq (f_name a) "tetrahedron_vertices")
  && negb (beq (f_name a) "tetrahedron_adjacents") && negb (beq (f_name a) "geode_active").
Definition show_int (z : Z) : bytes := if z <? 0 then "-"%char :: show (- z) else show z.
Definition nb_elem_att (s : solid) : Z := Z.of_nat (List.length (s_pattrs s)) - 3.
Definition write_ref_element_dist (s : solid) : res (list bytes) :=
  do blocks <- mapM (write_property (nb_polyhedra s)) (filter poly_exported (s_pattrs s));
  Ok (lit "REF_DISE_I"
      :: (SP :: show_int (nb_elem_att s) ++ lit ", " ++ show (Z.of_nat (nb_polyhedra s)) ++ lit ", 0")
      :: List.concat blocks).

(** fem_output.cpp 505-536 ([create_region_map], vertices: several blocks per vertex). *)
Definition vertex_region_map (n : nat) (names : list (list bytes)) : res (table (K := bytes)) :=
  foldM (fun m v => do ns <- idxz names v;
           Ok (fold_left (fun m x => table_add beq x (add32 v 1) m) ns m)) (rangez 0 n) [].
(** fem_output.cpp 440-459 ([write_nodal_sets]). *)
Definition write_nodal_sets (s : solid) : res (list bytes) :=
  match s_block_vertex s with
  | None => Ok []
  | Some names =>
    do m <- vertex_region_map (nb_vertices s) names;
    Ok (lit "NODALSETS" :: flat_map (fun e => write_chunks (snd e) (fst e) CHUNK_SIZE) (siter V _ m))
  end.
(** fem_output.cpp 461-503 ([write_element_sets] and [create_region_map], polyhedra): the keys of the
    table are [std::string_view]s on the loop variable [value], a copy of the attribute value that
    dies at the end of each iteration; reading such a key afterwards is undefined behaviour. *)
Definition write_element_sets (s : solid) : res (list bytes) :=
  match s_block_poly s with
  | None => Ok []
  | Some _ => match nb_polyhedra s with O => Ok [lit "ELEMENTALSETS"] | S _ => UB end
  end.

(** ** Discrete features *)

(** fem_output.cpp 544-611: properties and groups of features. *)
Record group := mkGroup {
  g_name : bytes;
  g_features : list (list Z * Z);   (** nodes and feature id *)
  g_ids : list Z;
  g_props : list (bytes * table (K := val V))
}.
(** fem_output.cpp 579-592 ([get_property]). *)
Fixpoint get_property_from (i : nat) (name : bytes) (ps : list (bytes * table (K := val V))) : option nat :=
  match ps with
  | [] => None
  | (n, _) :: r => if beq n name then Some i else get_property_from (S i) name r
  end.
Definition get_property (name : bytes) (g : group) : option nat := get_property_from 0 name (g_props g).
(** [values_to_features[value].push_back( id )]: creates the entry when absent. *)
Definition on_property (name : bytes) (v : val V) (id : Z) (ps : list (bytes * table (K := val V)))
    : list (bytes * table (K := val V)) :=
  match get_property_from 0 name ps with
  | None => ps ++ [(name, [(v, [id])])]
  | Some i => match nth_error ps i with
              | Some (n, m) => upd ps i (n, table_add (veqb V) v id m)
              | None => ps
              end
  end.
Definition CONDUCTIVITY : bytes := lit "diagres_conductivity".
Definition APERTURE : bytes := lit "diagres_discontinuity_aperture".
Definition CONDUIT_AREA : bytes := lit "diagres_conduit_area".

(** fem_output.cpp 677-744 (2D) and 777-845 (1D): one facet or edge.  [None] as conductivity: the
    attribute did not exist, it is created with value -1. *)
Definition one_feature (main : bytes) (nodes : list Z) (v : val V) (c : option (val V))
    (st : group * Z) : group * Z :=
  let '(g, id) := st in
  if vneg V v then (g, id) else
  let ps := on_property main v id (g_props g) in
  let ps := match c with
            | Some c => if vpos V c then on_property CONDUCTIVITY c id ps else ps
            | None => ps
            end in
  (mkGroup (g_name g) (g_features g ++ [(map (fun x => add32 x 1) nodes, id)]) (g_ids g ++ [id]) ps,
   add32 id 1).
Definition feature_step (main : bytes) (vals : list (val V)) (conds : option (list (val V)))
    (st : group * Z) (ic : Z * list Z) : res (group * Z) :=
  let '(i, nodes) := ic in
  do v <- idxz vals i;
  match conds with
  | None => Ok (one_feature main nodes v None st)
  | Some cs => if vneg V v then Ok st
               else do c <- idxz cs i; Ok (one_feature main nodes v (Some c) st)
  end.
Definition enumerate {A} (l : list A) : list (Z * A) := combine (rangez 0 (List.length l)) l.
(** fem_output.cpp 662-751 and 768-852: throws when no feature was built. *)
Definition build_group (name main : bytes) (fi : features_in) (vals : list (val V)) (id : Z)
    : res (group * Z) :=
  do '(g, id') <- foldM (feature_step main vals (fi_cond fi)) (enumerate (fi_cells fi))
                    (mkGroup name [] [] [], id);
  match g_features g with [] => Throw ExData | _ => Ok (g, id') end.
(** fem_output.cpp 634-660, 753-766: a group is built when the attribute exists. *)
Definition build_opt (name main : bytes) (fi : option features_in) (id : Z) : res (list group * Z) :=
  match fi with
  | Some f => match fi_main f with
              | Some vals => do '(g, id') <- build_group name main f vals id; Ok ([g], id')
              | None => Ok ([], id)
              end
  | None => Ok ([], id)
  end.
Record features := mkFeatures { f2d : list group; f1d : list group }.
Definition build_discrete_features (s : solid) : res features :=
  do '(g2, id) <- build_opt "Surface_Feature_LDS" APERTURE (s_facets s) 1;
  do '(g1, _) <- build_opt "Edge_Feature_LDS" CONDUIT_AREA (s_edges s) id;
  Ok (mkFeatures g2 g1).
(** fem_output.cpp 598-612. *)
Definition nb_features (f : features) : Z :=
  fold_left (fun n g => add32 n (Z.of_nat (List.length (g_features g)))) (f1d f ++ f2d f) 0.
Definition nb_groups (f : features) : nat := List.length (f1d f) + List.length (f2d f).

(** Text pieces separated (not ended) by an end of line: fem_output.cpp 890-903, 936-951, 998-1007. *)
Fixpoint sep_lines (ls : list bytes) : bytes :=
  match ls with
  | [] => []
  | [l] => l
  | l :: r => l ++ LF :: sep_lines r
  end.
Definition quoted (t : bytes) : bytes := QUOTE :: t ++ [QUOTE].
Definition CDATA_START : bytes := lit "<![CDATA[".
Definition CDATA_END : bytes := lit "]]>".
(** fem_output.cpp 879-888 ([write_discrete_feature_header]). *)
Definition dfe_header : bytes :=
  line "DFE" ++
  line (add_spaces 2 ++ lit "<?xml version=" ++ quoted "1.0" ++ lit " encoding=" ++ quoted "utf-8"
        ++ lit " standalone=" ++ quoted "no" ++ lit " ?>") ++
  line (add_spaces 2 ++ lit "<fractures>").
(** fem_output.cpp 905-927 ([write_discrete_feature_signatures]). *)
Definition signature_lines (sig : bytes) (g : group) : list bytes :=
  repeat (SP :: sig) (List.length (g_features g)).
Definition write_signatures (f : features) : bytes :=
  line (add_spaces 4 ++ lit "<fep count=" ++ quoted (show (nb_features f)) ++ lit ">") ++
  line (add_spaces 6 ++ CDATA_START) ++
  flat_map (fun g => sep_lines (signature_lines "c2d3,darcy" g)) (f2d f) ++ [LF] ++
  flat_map (fun g => sep_lines (signature_lines "c1d2,darcy" g)) (f1d f) ++
  line CDATA_END ++ line (add_spaces 4 ++ lit "</fep>").
(** fem_output.cpp 929-973 ([write_discrete_feature_nodal_incidence_matrix]). *)
Definition incidence_line (ft : list Z * Z) : bytes :=
  add_spaces 5 ++ show (Z.of_nat (List.length (fst ft))) ++ flat_map (fun n => lit ", " ++ show n) (fst ft).
Definition write_incidence (f : features) : bytes :=
  line (add_spaces 4 ++ lit "<nop count=" ++ quoted (show (nb_features f)) ++ lit ">") ++
  line (add_spaces 6 ++ CDATA_START) ++
  flat_map (fun g => sep_lines (map incidence_line (g_features g))) (f2d f) ++ [LF] ++
  flat_map (fun g => sep_lines (map incidence_line (g_features g))) (f1d f) ++
  line CDATA_END ++ line (add_spaces 4 ++ lit "</nop>").
(** fem_output.cpp 975-1008 ([write_discrete_feature_group]). *)
Definition write_group (g : group) : bytes :=
  line (add_spaces 6 ++ lit "<group name=" ++ quoted (g_name g) ++ lit " law=" ++ quoted "darcy"
        ++ lit " mode=" ++ quoted "unstructured" ++ lit ">") ++
  line (add_spaces 8 ++ lit "<elements count=" ++ quoted (show (Z.of_nat (List.length (g_features g)))) ++ lit ">") ++
  add_spaces 10 ++ CDATA_START ++ sep_lines (format_range_chunks (g_ids g) CHUNK_SIZE) ++ line CDATA_END ++
  line (add_spaces 8 ++ lit "</elements>") ++ line (add_spaces 6 ++ lit "</group>").
(** fem_output.cpp 1010-1020 ([write_discrete_feature_groups]). *)
Definition write_groups (f : features) : bytes :=
  line (add_spaces 4 ++ lit "<groups count=" ++ quoted (show (Z.of_nat (nb_groups f))) ++ lit ">") ++
  flat_map write_group (f2d f) ++ flat_map write_group (f1d f) ++
  line (add_spaces 4 ++ lit "</groups>").

(** fem_output.cpp 1036-1078 ([write_material_property]): [last] tells that this is the last entry of
    the table ([iterator < size - 1] is false). *)
Definition material_entry (v : val V) (chunk : bytes) : bytes := add_spaces 14 ++ vos V v ++ SP :: chunk.
Fixpoint material_chunks (last : bool) (v : val V) (chunks : list bytes) : bytes :=
  match chunks with
  | [] => []
  | [c] => material_entry v c
  | c :: r => material_entry v c ++ (if last then [] else [LF]) ++ material_chunks last v r
  end.
Definition material_value (last : bool) (v : val V) (ids : list Z) : bytes :=
  match format_range_chunks ids CHUNK_SIZE with
  | [c] => material_entry v c ++ (if last then [] else [LF])
  | chunks => material_chunks last v chunks
  end.
Fixpoint material_values (m : list (val V * list Z)) : bytes :=
  match m with
  | [] => []
  | (v, ids) :: r => material_value (match r with [] => true | _ => false end) v ids ++ material_values r
  end.
Definition write_material_property (id : bytes) (m : table (K := val V)) : bytes :=
  line (add_spaces 10 ++ lit "<material id=" ++ quoted id ++ lit ">") ++
  line (add_spaces 12 ++ CDATA_START) ++
  material_values (viter V _ m) ++
  line (SP :: CDATA_END) ++ line (add_spaces 10 ++ lit "</material>").
(** fem_output.cpp 1080-1095 ([combine_maps]). *)
Fixpoint append_on (k : val V) (es : list Z) (m : table (K := val V)) : table (K := val V) :=
  match m with
  | [] => []
  | (k', es') :: r => if veqb V k k' then (k', es' ++ es) :: r else (k', es') :: append_on k es r
  end.
Definition combine_maps (m1 m2 : table (K := val V)) : table (K := val V) :=
  fold_left (fun m e => if contains_key (veqb V) (fst e) m then append_on (fst e) (snd e) m
                        else m ++ [(fst e, snd e)]) (viter V _ m2) m1.
(** fem_output.cpp 1097-1191 ([write_discrete_feature_properties]): the 1D table of areas is looked up
    with the index found in the 2D group (line 1133), as in the code. *)
Definition opt_property (name : bytes) (gs : list group) : option nat :=
  match gs with g :: _ => get_property name g | [] => None end.
Definition table_at (gs : list group) (i : nat) : res (table (K := val V)) :=
  do g <- front gs; do p <- idx (g_props g) i; Ok (snd p).
Definition area_text (f : features) : res bytes :=
  match opt_property APERTURE (f2d f), opt_property CONDUIT_AREA (f1d f) with
  | Some i, Some _ => do m <- table_at (f2d f) i; do m1 <- table_at (f1d f) i;
                      Ok (write_material_property "AREA" (combine_maps m m1))
  | Some i, None => do m <- table_at (f2d f) i; Ok (write_material_property "AREA" m)
  | None, Some j => do m <- table_at (f1d f) j; Ok (write_material_property "AREA" m)
  | None, None => Ok []
  end.
Definition cond_text (f : features) : res bytes :=
  match opt_property CONDUCTIVITY (f2d f), opt_property CONDUCTIVITY (f1d f) with
  | Some i, Some j => do m <- table_at (f2d f) i; do m1 <- table_at (f1d f) j;
                      Ok (write_material_property "COND" (combine_maps m m1))
  | Some i, None => do m <- table_at (f2d f) i; Ok (write_material_property "COND" m)
  | None, Some j => do m <- table_at (f1d f) j; Ok (write_material_property "COND" m)
  | None, None => Ok []
  end.
Definition write_feature_properties (f : features) : res bytes :=
  match f2d f, f1d f with
  | [], [] => Ok []
  | _, _ =>
    do a <- area_text f; do c <- cond_text f;
    Ok (line (add_spaces 4 ++ lit "<properties>") ++ line (add_spaces 6 ++ lit "<flow>") ++
        line (add_spaces 8 ++ lit "<materials>") ++ a ++ c ++
        line (add_spaces 8 ++ lit "</materials>") ++ line (add_spaces 6 ++ lit "</flow>") ++
        line (add_spaces 4 ++ lit "</properties>"))
  end.
(** fem_output.cpp 1198-1214 ([write_discrete_features]). *)
Definition write_discrete_features (s : solid) : res bytes :=
  do f <- build_discrete_features s;
  match nb_groups f with
  | O => Ok []
  | S _ => do p <- write_feature_properties f;
           Ok (dfe_header ++ write_signatures f ++ write_incidence f ++ write_groups f ++ p ++
               line (SP :: lit "</fractures>"))
  end.

(** ** The whole file *)

(** fem_output.cpp 167-177 ([write_dimension]). *)
Definition write_dimension (s : solid) : list bytes :=
  [lit "DIMENS"; SP :: show (Z.of_nat (nb_vertices s)) ++ SP :: show (Z.of_nat (nb_polyhedra s))
                 ++ lit " 0 1 0 0 0 0 0 1 0 0 0 0 0 0 0 0"].
(** fem_output.cpp 180-196 ([write_var_node]). *)
Definition tetra_line (vs : list Z) : bytes :=
  lit " 6 " ++ flat_map (fun v => show (add32 v 1) ++ add_spaces 1) vs.
Definition write_var_node (s : solid) : list bytes :=
  lit "VARNODE" :: (SP :: show (Z.of_nat (nb_polyhedra s)) ++ lit " 4 4") :: map tetra_line (s_tetras s).
(** fem_output.cpp 198-207 ([write_node_coordinates]). *)
Definition coord_text (p : val V * val V * val V) : bytes :=
  let '(x, y, z) := p in SP :: vos V x ++ lit ", " ++ vos V y ++ lit ", " ++ vos V z.
Definition write_node_coordinates (s : solid) : list bytes := lit "XYZCOOR" :: map coord_text (s_points s).
(** fem_output.cpp 121-150 ([write_file]), 152-165, 172-178, 538-542, 1216-1219. *)
Definition write_fem (s : solid) : res bytes :=
  do nodal <- write_ref_nodal_dist s;
  do elem <- write_ref_element_dist s;
  do nsets <- write_nodal_sets s;
  do esets <- write_element_sets s;
  do dfe <- write_discrete_features s;
  Ok (unlines ([lit "PROBLEM:"; lit "CLASS (v.7.202.18152)";
                lit "   0    0    0    3    0    0    8    8    0    0"]
               ++ write_dimension s ++ [lit "SCALE"; []] ++ write_var_node s ++ write_node_coordinates s
               ++ nodal ++ elem ++ nsets ++ esets ++ [lit "GRAVITY"; lit " 0 0 -1"])
      ++ dfe ++ unlines [lit "END"]).
End Fem.
