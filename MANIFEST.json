{
 "claims": [
  {
   "property": "C01",
   "status": "proved",
   "theorems": [
    "C01_quoted_names_roundtrip"
   ],
   "note": "all lists of clean names"
  },
  {
   "property": "C02",
   "status": "partial",
   "theorems": [
    "C02_missing_quote_refuted",
    "C02_missing_quote_partial"
   ],
   "note": "the full claim (an exception) is false of the code: the loop reads past the end; the partial theorem characterises exactly when"
  },
  {
   "property": "C03",
   "status": "proved",
   "theorems": [
    "C03_crlf_invariance"
   ],
   "note": "all texts, all three readers"
  },
  {
   "property": "C04",
   "status": "proved",
   "theorems": [
    "C04_ts_geometry_roundtrip"
   ],
   "note": "every surface whose attribute names are clean and whose name is one line"
  },
  {
   "property": "C05",
   "status": "proved",
   "theorems": [
    "C05_ts_attributes_roundtrip"
   ],
   "note": "attribute names clean and distinct"
  },
  {
   "property": "C06",
   "status": "proved",
   "theorems": [
    "C06_ts_numbering_base",
    "C06_pl_numbering_base"
   ],
   "note": "Every file given as a list of raw lines and numbered rows, every pair of bases that keeps the numbers below 2^32; hypothesis: each section declares a vertex before it uses one."
  },
  {
   "property": "C07",
   "status": "proved",
   "theorems": [
    "C07_ts_depth",
    "C07_vs_depth",
    "C07_pl_depth",
    "C07_ts_no_crs",
    "C07_vs_no_crs",
    "C07_pl_no_crs"
   ],
   "note": "TSurf, VSet and PLine: for every object whose coordinate system section has a last ZPOSITIVE line, replacing Elevation by Depth only negates z (same failures otherwise); without a section the file reads as with Elevation. Wells are C19."
  },
  {
   "property": "C08",
   "status": "proved",
   "theorems": [
    "C08_disjoint_union",
    "C08_saved_surfaces",
    "C08_pl_disjoint_union",
    "C08_vs_union",
    "C08_pl_without_END_refuted",
    "C08_other_size_refuted"
   ],
   "note": "Files made of any number of surfaces, and of saved surfaces: points concatenated, triangles shifted, every corner inside its own object; curves and point sets likewise. The PLine case needs the first file to end with END: without it the claim is false (witness). Finding: when two objects of the file declare the same property with different numbers of values the whole load throws (witness), which the theorems exclude by same_kinds."
  },
  {
   "property": "C09",
   "status": "partial",
   "theorems": [
    "C09_multi_object_attributes_refuted",
    "C09_multi_object_attributes_partial",
    "C09_surfaces_rule",
    "C09_point_sets_rule"
   ],
   "note": "False: the property values of a later object overwrite those of the first vertices (finding). Proved instead: the exact rule for any number of saved surfaces or point sets (vertex v of the whole mesh carries the value of vertex v of the last object having the property and more than v vertices, else the no-data value), and for any files, when what follows declares no property, all values stay on their own vertex."
  },
  {
   "property": "C10",
   "status": "partial",
   "theorems": [
    "C10_vs_roundtrip_partial",
    "C10_vs_empty_refuted",
    "C10_vs_empty_always_throws"
   ],
   "note": "false for the empty point set: its file cannot be loaded; proved for every non-empty one"
  },
  {
   "property": "C100",
   "status": "proved",
   "theorems": [
    "C100_outcome"
   ],
   "note": "Exact rule. Finding: reading outside an attribute when a vertex attribute is exported with more polyhedra than vertices, and reading dead names when cells have block names; otherwise a file or a data exception."
  },
  {
   "property": "C101",
   "status": "proved",
   "theorems": [
    "C101_preparation",
    "C101_export_refuted"
   ],
   "note": "Refuted: the export of every BRep with at least one cell (and no attribute to transfer called Block_ID_polyhedron) is undefined (names of blocks of cells, C59). The preparation of the solid is proved total, except for a block without cells that has an attribute to transfer (undefined: its value of cell 0 is read) and for an attribute of numbers to transfer called Block_ID_polyhedron (the export throws)."
  },
  {
   "property": "C102",
   "status": "proved",
   "theorems": [
    "C102_surface",
    "C102_numbers_refuted",
    "C102_gap_refuted"
   ],
   "note": "Grammar.v specifies the files without reference to the reader. Findings: the numbers of the vertices are not used, only the first one: with numbers 1, 3, 2 the triangles silently join other vertices (C102_numbers_refuted), with numbers 1, 2, 4 a triangle refers to a vertex outside the mesh (C102_gap_refuted). Property sizes are assumed below 256 (ESIZES are stored in 8 bits, see small_sizes) and property names distinct and different from points."
  },
  {
   "property": "C103",
   "status": "proved",
   "theorems": [
    "C103_curve",
    "C103_atom_refuted"
   ],
   "note": "Finding: ATOM lines of a PLine are ignored: the vertex is lost and the segments that follow silently join other vertices (C103_atom_refuted)."
  },
  {
   "property": "C104",
   "status": "proved",
   "theorems": [
    "C104_point_set",
    "C104_atom_refuted"
   ],
   "note": "Finding: ATOM lines of a VSet are ignored, their points are lost (C104_atom_refuted). Same restrictions on properties as C102."
  },
  {
   "property": "C105",
   "status": "proved",
   "theorems": [
    "C105_solid",
    "C105_order_refuted"
   ],
   "note": "For all files of the grammar of GrammarLso.v whose references are to declared vertices. Files with TETRA_ properties only under enough_cells (C47: the reader uses the number of a vertex as the number of a tetrahedron). Finding (C105_order_refuted): an original vertex declared after a copy shifts the numbering; a copy of it is looked up outside the list."
  },
  {
   "property": "C106",
   "status": "proved",
   "theorems": [
    "C106_model3d",
    "C106_salt_refuted"
   ],
   "note": "Finding: a block enclosed by one closed surface (a REGION with one number) is undefined behaviour (C106_salt_refuted). The lines and corners built from the borders are C44 and C78."
  },
  {
   "property": "C107",
   "status": "proved",
   "theorems": [
    "C107_pl_rule",
    "C107_same_curve"
   ],
   "note": "The exact rule behind the refutations of C13: which edge of each loop is displaced and where it goes, when loading is undefined, and when the curve survives."
  },
  {
   "property": "C108",
   "status": "proved",
   "theorems": [
    "C108_terminates",
    "C108_rows_outcome",
    "C108_wl_safe",
    "C108_wl_blank_line_refuted",
    "C108_dev_outcome",
    "C108_dev_columns_refuted"
   ],
   "note": "Finding: undefined behaviour for an empty .dat/.txt file, a .dev file without rows, a .dev header with X, Y or Z repeated or without a line of column names, and a blank line in the coordinate system section of a .wl file."
  },
  {
   "property": "C109",
   "status": "proved",
   "theorems": [
    "C109_terminates",
    "C109_vo_safe",
    "C109_vo_outcome",
    "C109_vo_cells_refuted",
    "C109_vo_one_line_refuted"
   ],
   "note": "Finding: an AXIS_N line with fewer than three numbers reads past its words; a data file made of one line without line feed loads, its words taken as property names."
  },
  {
   "property": "C11",
   "status": "proved",
   "theorems": [
    "C11_pl_every_edge_once"
   ],
   "note": "Any graph, any order of edges_around_vertex; assumes 2*nb_edges+1 fits 32 bits and attribute names are clean."
  },
  {
   "property": "C110",
   "status": "partial",
   "theorems": [
    "C110_reachable",
    "C110_others_kept",
    "C110_any_order",
    "C110_twice",
    "C110_saved_can_be_loaded",
    "C110_stratigraphic_lso_refuted"
   ],
   "note": "Proved for all readers and writers but one. False (finding) of the reader of stratigraphic .lso files (strati_lso_input.cpp): it is compiled but never registered, so no stratigraphic model can be loaded from an .lso file."
  },
  {
   "property": "C111",
   "status": "proved",
   "theorems": [
    "C111_files",
    "C111_other_directory",
    "C111_completes",
    "C111_trailing_slash_refuted",
    "C111_document_refuted"
   ],
   "note": "Findings: when the directory is given with a slash at the end, the files have an empty name (.vtu, _simulation.xml); when the XML document cannot be written the export ends normally without it (result of save_file ignored)."
  },
  {
   "property": "C112",
   "status": "partial",
   "theorems": [
    "C112_boxes",
    "C112_refuted"
   ],
   "note": "Bounds are printed with six significant digits (absl::StrCat of a double): they bound the perforations to within five millionths of the largest coordinate, and exactly when the coordinates are at most 19. Refuted with usual map coordinates: a cell up to 451234.4 m gives an upper bound of 451234, below a perforation at 451234.3 m."
  },
  {
   "property": "C113",
   "status": "proved",
   "theorems": [
    "C113_outcome",
    "C113_components",
    "C113_any_file",
    "C113_undefined_refuted",
    "C113_blank_line_refuted",
    "C113_ends_refuted"
   ],
   "note": "Exact: under file_ok, loading is defined and ends if and only if every model text of the file fits. Findings (refuted that loading always succeeds or throws): blank line, short TFACE line, region with one surface, unknown surface number, -2^31 as a surface number, object with too few TFACE sections, triangle across sections (undefined behaviour); list without its final zero (endless loop)."
  },
  {
   "property": "C114",
   "status": "partial",
   "theorems": [
    "C114_ends",
    "C114_defects_refuted",
    "C114_cell_property_refuted",
    "C114_repeated_properties"
   ],
   "note": "The conditions are sufficient; each of them is needed (files with one defect whose loading is undefined behaviour: 14 kinds in C114_defects_refuted, tetrahedron properties in C114_cell_property_refuted), but a file that breaks a condition after an error that throws is refused, so they are not the exact conditions. Findings: a file that ends after its vertices, a copy of an unknown vertex or of a copy, a tetrahedron or triangle with an unknown vertex, a triangle on a copy, missing words."
  },
  {
   "property": "C115",
   "status": "proved",
   "theorems": [
    "C115_numbers",
    "C115_surface",
    "C115_point_set",
    "C115_doubles",
    "C115_name_refuted"
   ],
   "note": "Proved, for attributes returned in the same order by attribute_names (unspecified by OpenGeode). A name with quotes or repeated blanks is written differently the second time (C115_name_refuted)."
  },
  {
   "property": "C116",
   "status": "proved",
   "theorems": [
    "C116_surfaces",
    "C116_relations",
    "C116_disjoint_refuted"
   ],
   "note": "For every text that the model loads. Finding: a surface can be at the same time a boundary and an internal surface of a block, when its number is given three times. A triangle with a vertex out of its section is undefined behaviour in the model, so the claim on triangles is about loads with defined behaviour."
  },
  {
   "property": "C117",
   "status": "partial",
   "theorems": [
    "C117_meshes",
    "C117_relations",
    "C117_attributes",
    "C117_positions_partial",
    "C117_positions_saved",
    "C117_positions_refuted"
   ],
   "note": "For every text that the model loads. Refuted for the positions: when a copy (SHAREDVRTX) comes before a vertex, its number is used both as vertex and as unique vertex number, and two vertices at different places get the same unique vertex; true when the copies come last in the run of vertex lines, in particular in every file saved by the library (C117_positions_saved)."
  },
  {
   "property": "C118",
   "status": "proved",
   "theorems": [
    "C118_surface",
    "C118_point_set",
    "C118_curve",
    "C118_rows",
    "C118_dev",
    "C118_wl",
    "C118_voxet"
   ],
   "note": "For every text that the model loads; wells with at most 2^32 points. Using a vertex that does not exist is undefined behaviour in the model (the builders only assert it), so the claim on the cells is about loads with defined behaviour."
  },
  {
   "property": "C119",
   "status": "proved",
   "theorems": [
    "C119_crlf",
    "C119_loadable",
    "C119_announced_refuted"
   ],
   "note": "Meshes of GOCAD are C03. Finding: the data file announced by additional_files for a Voxet with CR LF ends with a CR and is said to be missing, while the reader removes it."
  },
  {
   "property": "C12",
   "status": "partial",
   "theorems": [
    "C12_pl_open_roundtrip_partial",
    "C12_pl_no_edge_refuted"
   ],
   "note": "Holds for every curve with an edge; false for a curve without edge, whose file cannot be loaded."
  },
  {
   "property": "C120",
   "status": "partial",
   "theorems": [
    "C120_same_file",
    "C120_same_lines",
    "C120_same_file_refuted"
   ],
   "note": "Finding: NODALSETS and the materials of the discrete features are written in the order of a hash table, so two runs may write different files (with two materials even the lines differ, the last one carries the end of the CDATA). Without nodal sets and discrete features the file is the same; with nodal sets only, the lines are the same up to order. Sorting is assumed to give the same result for the same pairwise different values in another order."
  },
  {
   "property": "C121",
   "status": "proved",
   "theorems": [
    "C121_saved_is_loadable"
   ],
   "note": ""
  },
  {
   "property": "C122",
   "status": "proved",
   "theorems": [
    "C122_features_document"
   ],
   "note": "Assumes the printed values contain no closing bracket."
  },
  {
   "property": "C123",
   "status": "proved",
   "theorems": [
    "C123_sections"
   ],
   "note": "Assumes names are single lines that do not begin with a blank, and printed values without blanks."
  },
  {
   "property": "C124",
   "status": "proved",
   "theorems": [
    "C124_accepted",
    "C124_every_vertex_in_a_set"
   ],
   "note": "The correspondence between the vertices of the model and of the solid (convert_brep_into_solid, external) is the hypothesis same_vertices."
  },
  {
   "property": "C125",
   "status": "proved",
   "theorems": [
    "C125_corners"
   ],
   "note": "For the whole loop on the BSTONE lines, every nearness that holds between a point and itself."
  },
  {
   "property": "C126",
   "status": "proved",
   "theorems": [
    "C126_unique_vertices",
    "C126_not_transitive_refuted"
   ],
   "note": "For an equivalence. Finding: with a distance test that is not transitive, two vertices that are not near each other may share a unique vertex (three corners in a chain)."
  },
  {
   "property": "C127",
   "status": "partial",
   "theorems": [
    "C127_exported_iff",
    "C127_accepted_not_exported_refuted"
   ],
   "note": "Exact condition. Refuted as stated: is_saveable accepts models whose export throws (first boundary of a block in no horizon, fault or model boundary) or is undefined (block without boundary, surface vertex on no block)."
  },
  {
   "property": "C128",
   "status": "partial",
   "theorems": [
    "C128_loaded_complete",
    "C128_loads_iff",
    "C128_missing_pillars",
    "C128_too_few_pillars_refuted",
    "C148_loads_iff"
   ],
   "note": "Refuted for the pillars: a COORD section with too few pillars is accepted and the missing pillars have both ends at the origin (C128_missing_pillars, C128_too_few_pillars_refuted). Proved for every text: the depths are exactly 8 nx ny nz, the pillars at most (nx+1)(ny+1), the cells nx ny nz; exact condition for loading when no section is included (C128_loads_iff), and for included sections (C148_loads_iff)."
  },
  {
   "property": "C129",
   "status": "proved",
   "theorems": [
    "C129_shared",
    "C129_split"
   ],
   "note": "Shared vertices for any arithmetic and any colocation search that gives equal points the same vertex; the converse in exact arithmetic with a search that merges equal points only (the code merges points closer than 1e-6). Together with C24, which gives cells_of for every complete file."
  },
  {
   "property": "C13",
   "status": "partial",
   "theorems": [
    "C13_pl_loop_refuted",
    "C13_pl_loop_missing_vertex_refuted",
    "C13_tidy_loops_partial",
    "C13_single_loop_partial"
   ],
   "note": "Refuted: the closing segment uses the number of the vertex in the curve instead of the one in the file; the loaded curve has wrong segments or the loading is undefined behaviour. Proved: the segments are kept for curves made of loops only, numbered loop after loop with the first edge of each loop beginning at the vertex of the same number; for a single loop, when its first edge begins at vertex 0."
  },
  {
   "property": "C130",
   "status": "partial",
   "theorems": [
    "C130_exported_iff",
    "C130_accepted_not_exported_refuted"
   ],
   "note": "Refuted: accepted models with an erosion or baselap horizon, an unnamed fault, horizon, unit or fault block, a surface without triangle (undefined behaviour), or a block boundary that is only in another kind of collection are not exported. Proved: a sound model is exported exactly when it is writable."
  },
  {
   "property": "C131",
   "status": "partial",
   "theorems": [
    "C131_comments_ignored_partial",
    "C131_place_refuted",
    "C131_name_refuted",
    "C131_quote_refuted"
   ],
   "note": "Proved for every file and every comment without the text name: and without a lone quote, placed anywhere but directly before HEADER, GOCAD_ORIGINAL_COORDINATE_SYSTEM and PROPERTIES. Findings: a comment directly before one of these three lines makes the load fail or silently ignores the coordinate system (depths not negated) or the properties; a commented name in the header replaces the name; a lone quote in a comment of the coordinate system is undefined behaviour."
  },
  {
   "property": "C132",
   "status": "partial",
   "theorems": [
    "C132_surface_cut",
    "C132_point_set_cut",
    "C132_never_loaded",
    "C132_curve_cut",
    "C132_curve_refuted",
    "C132_inside_line_refuted",
    "C132_next_object_refuted"
   ],
   "note": "Proved for surfaces and point sets cut between two lines: the exception, for every loadable file. Refuted for curves: cut after ILINE they are loaded without notice as the beginning of the curve (C132_curve_cut, C132_curve_refuted). Refuted inside a line: never loaded, but the missing words are read out of bounds (C132_inside_line_refuted). Refuted when another object follows: the two surfaces are merged and the triangles of the second join vertices of the first (C132_next_object_refuted)."
  },
  {
   "property": "C133",
   "status": "proved",
   "theorems": [
    "C133_surface",
    "C133_point_set",
    "C133_curve",
    "C133_solid_model",
    "C133_model",
    "C133_surface_classes",
    "C133_point_set_classes",
    "C133_curve_classes"
   ],
   "note": "About the list of lines that is written; a name that contains a line end can of course add lines (C07)."
  },
  {
   "property": "C134",
   "status": "proved",
   "theorems": [
    "C134_loaded",
    "C134_ends"
   ],
   "note": "For every list of layers, features and points. GDAL (layers, features, points) and Polygon2D::triangulate are parameters: the latter is assumed to give triangles on the points it receives. A polygon of fewer than three vertices breaks a precondition of OpenGeode and is modelled as undefined behaviour. Corners are only required to be without cells: C87 tells which of their points have a unique vertex."
  },
  {
   "property": "C135",
   "status": "proved",
   "theorems": [
    "C135_size",
    "C135_mesh"
   ],
   "note": "Finding: with 2^32 pixels or more (65536 x 65536) the products of the sizes wrap on 32 bits and the arrays are accessed out of bounds (undefined behaviour). GDAL is not modelled: the raster is its width, height and elevations, the array of elevations having the length computed by the code. Vertices that are in no polygon are kept, isolated."
  },
  {
   "property": "C136",
   "status": "proved",
   "theorems": [
    "C136_order",
    "C136_unnamed_refuted"
   ],
   "note": "For the stack handed to repair_horizon_stack_if_possible (OpenGeode-Geosciences), which is not modelled. Finding: entries without a name are all taken for one horizon whose name is empty (C136_unnamed_refuted)."
  },
  {
   "property": "C137",
   "status": "proved",
   "theorems": [
    "C137_wl",
    "C137_rows",
    "C137_dev",
    "C137_noticed_refuted"
   ],
   "note": "Up to 2^32 points. Finding: a well cut inside its trajectory loads silently as a shorter well, in the three formats (GOCAD's END line is not required): C137_noticed_refuted. A .dev file cut right after its header is undefined behaviour (case named in C137_dev; finding of C21); likewise an empty .dat or .txt file (C20)."
  },
  {
   "property": "C138",
   "status": "proved",
   "theorems": [
    "C138_cut",
    "C138_refused_refuted"
   ],
   "note": "Full statement but for the ending: no incomplete model is ever returned and nothing is undefined. Finding: a file that stops inside the list of numbers of a region, layer or fault block is not refused, the reader loops forever (C138_refused_refuted; this is the only such case: in_list in C138_cut)."
  },
  {
   "property": "C139",
   "status": "proved",
   "theorems": [
    "C139_cut",
    "C139_noticed_refuted",
    "C139_safe_refuted"
   ],
   "note": "Proved as stated. Finding: a .lso file cut in its surfaces or blocks loads silently as an incomplete model (C139_noticed_refuted). Finding: cut in the vertices or the tetrahedra, words are read outside their list (C139_safe_refuted)."
  },
  {
   "property": "C14",
   "status": "proved",
   "theorems": [
    "C14_pl_name_attributes_lost",
    "C14_pl_vertices_refuted"
   ],
   "note": "Refuted: isolated vertices, name and attributes are lost."
  },
  {
   "property": "C140",
   "status": "proved",
   "theorems": [
    "C140_voxet",
    "C140_voxet_data",
    "C140_grdecl",
    "C140_data_noticed_refuted",
    "C140_grdecl_ends_refuted",
    "C140_grdecl_safe_refuted"
   ],
   "note": "Proved as stated. Findings: a Voxet data file cut short loads silently, the missing cells have the value 0 (C140_data_noticed_refuted); a GRDECL file cut in its pillars or depths makes the reader loop for ever (C140_grdecl_ends_refuted) or, after the first line of a pillar on two lines, read words that do not exist (C140_grdecl_safe_refuted)."
  },
  {
   "property": "C141",
   "status": "proved",
   "theorems": [
    "C141_surfaces",
    "C141_points",
    "C141_lines",
    "C141_between_surfaces",
    "C141_between_points",
    "C141_between_lines",
    "C141_saved_surface",
    "C141_saved_points",
    "C141_saved_line",
    "C141_empty_set_refuted"
   ],
   "note": "Finding: a saved point set without point, refused when alone (C10), takes the vertices of the object behind it when there is one (C141_empty_set_refuted)."
  },
  {
   "property": "C142",
   "status": "proved",
   "theorems": [
    "C142_structural_model",
    "C142_brep",
    "C142_reloaded",
    "C142_accepted_not_exported_refuted"
   ],
   "note": "Finding: is_saveable only looks at the number of vertices of the polygons. It accepts BReps whose export throws (the outside is in several parts, no volume) or is undefined behaviour (a block without boundary, a surface without triangle) (C142_accepted_not_exported_refuted). clone_with_model_boundaries, called when the model has no model boundary, is OpenGeode's: the model is the one it returns."
  },
  {
   "property": "C143",
   "status": "proved",
   "theorems": [
    "C143_exported_iff",
    "C143_reloaded",
    "C143_without_boundary"
   ],
   "note": "Finding: a model without model boundary is accepted by is_saveable but always refused by the export (C143_without_boundary), after the file has been opened; the .ml export builds the missing model boundaries itself. The checks of the mesh types are not represented."
  },
  {
   "property": "C144",
   "status": "proved",
   "theorems": [
    "C144_pl_again",
    "C144_pl_again_same_file",
    "C144_pl_again_loop_refuted"
   ],
   "note": "Any curve whose loops come back (C107's condition), any order of edges around the vertices at the second save, attributes shown the same way; second theorem: open curves and tidy loops without exported attribute, byte for byte. Finding (C144_pl_again_loop_refuted): a loop closed on the wrong vertex line (C13, C107) gives another file the second time. Attributes are not loaded (C14), so they are only in the second file if the user adds them again."
  },
  {
   "property": "C145",
   "status": "proved",
   "theorems": [
    "C145_loaded_not_saved",
    "C145_saved_again",
    "C145_saved_again_refuted"
   ],
   "note": "Finding: lso_input.cpp creates horizons only, so every model loaded from a .lso file is refused by the .lso export (no model boundary), although is_saveable accepts it. Once model boundaries are added and the sides are found, a saved and loaded model whose block vertices all belong to tetrahedra is saved again and the second file gives the same unique vertices, blocks and surfaces."
  },
  {
   "property": "C146",
   "status": "proved",
   "theorems": [
    "C146_loaded_saved",
    "C146_saved_again",
    "C146_saved_again_refuted",
    "C147_second_file"
   ],
   "note": "Any loaded model: exported exactly when the sides are found and every surface has a triangle (C146_loaded_saved). Second round trip when all surfaces are in a model boundary, a fault or a horizon (C146_saved_again); C147_second_file shows that this condition is exact. Finding: with a surface in no collection the second file cannot be loaded (std::out_of_range), C146_saved_again_refuted. The loaded model is taken to have a model boundary (build_model_boundaries of OpenGeode is not modelled); that the sides are found again is a hypothesis, as for the first export."
  },
  {
   "property": "C147",
   "status": "proved",
   "theorems": [
    "C147_loaded_again_needs",
    "C147_as_many_surfaces",
    "C147_second_file"
   ],
   "note": "Necessary conditions for any model (C147_loaded_again_needs, C147_as_many_surfaces); exact condition for the second file of a model (C147_second_file, with C146_saved_again). Covers the refuted cases of C41 (equal names, empty collections) and C146 as instances. The loaded model is the ml_seen of C146."
  },
  {
   "property": "C148",
   "status": "partial",
   "theorems": [
    "C148_loads_iff",
    "C148_loaded_as",
    "C148_place_does_not_matter",
    "C148_section_not_found",
    "C148_name_without_underscore",
    "C148_any_name_refuted"
   ],
   "note": "Proved for all texts with dimensions of at least 1 and below the 32-bit limit. Refuted for the names: the keyword must come after an underscore; INCLUDE of a file called 'COORD.INC' registers the keyword with its quote, so the file is never read and the grid is refused (C148_any_name_refuted)."
  },
  {
   "property": "C149",
   "status": "proved",
   "theorems": [
    "C149_rest_of_names_lost",
    "C149_distinct_first_words",
    "C149_relations_restored",
    "C149_blocks_with_the_same_first_word"
   ],
   "note": "Proved for all models that can be saved whose block names have at least one word (names without a word: C46_empty_name_refuted). Finding: the rest of each name is lost, and two blocks whose names begin with the same word each get the tetrahedra of both."
  },
  {
   "property": "C15",
   "status": "partial",
   "theorems": [
    "C15_no_undefined_behaviour_refuted",
    "C15_terminates_partial",
    "C15_well_shaped_partial",
    "C15_point_sets_partial",
    "C15_surfaces_partial",
    "C15_curves_partial",
    "C15_short_properties_refuted",
    "C15_missing_vertex_refuted"
   ],
   "note": "False: a blank data line makes front() read an empty vector, a property line shorter than the list of names is read out of bounds, a triangle corner without vertex is passed to the builder (findings). Proved: always terminates; no undefined behaviour when loading whole files (point sets, surfaces, curves) whose lines are well shaped, whose property sections hold as many values as names with sizes below 256, and whose triangles and segments use vertices of their own object."
  },
  {
   "property": "C150",
   "status": "partial",
   "theorems": [
    "C150_depths_on_any_lines",
    "C150_other_word_in_depths",
    "C150_other_line_in_pillars",
    "C150_blank_line_between_pillars",
    "C150_eclipse_words",
    "C150_pillars_on_any_lines_refuted"
   ],
   "note": "The depths: any arrangement (C150_depths_on_any_lines, also for files that fail); a word that is not a number is refused with an exception, wherever it is, as is a line of the pillars that is neither a pillar nor half of one; for the decimal reader of the model, repeat counts, slashes and comments are not numbers (C150_eclipse_words). Refuted for the pillars: their coordinates cannot be spread freely (C150_pillars_on_any_lines_refuted); when a line has three numbers, what follows the third word of the next line is lost without notice (this is also where a comment or a slash is accepted), and the pillars not read are at the origin."
  },
  {
   "property": "C151",
   "status": "partial",
   "theorems": [
    "C151_spacing",
    "C151_loadable",
    "C151_voxet",
    "C151_grid",
    "C151_more_blanks",
    "C151_indented_rows",
    "C151_first_line_refuted",
    "C151_indented_refuted",
    "C151_data_file_refuted"
   ],
   "note": "Proved for every text and every reader (surfaces, points, curves, wells, structural models, solids, Voxets with their data file, corner-point grids with the included files): lines with the same words and the same first word at the beginning, whatever the blanks between and after them, and rows of numbers (first word beginning with a digit, a sign or a point) with any indentation; lines that begin with GOCAD or # , the line ASCII_DATA_FILE of a Voxet and the lines that name the included files of a grid must be equal. C151_more_blanks, C151_indented_rows: any such spacing is covered. Refuted: two blanks in the first line give an empty surface without notice, an indented coordinate system line gives depths of the wrong sign without notice, two blanks before the name of the data file make a Voxet refused. Not covered: indenting a line that begins with a keyword (refuted in general)."
  },
  {
   "property": "C152",
   "status": "proved",
   "theorems": [
    "C152_rows_in_any_order",
    "C152_same_outcome",
    "C152_two_rows_for_a_cell_refuted"
   ],
   "note": "C152_rows_in_any_order: every text that is loaded; C152_same_outcome: also when a row is refused, for the files of C109. Rows about cells of the grid (a row outside the grid: C23), fewer than 2^32 cells. Refuted without the condition: with two rows for a cell, the last one counts."
  },
  {
   "property": "C153",
   "status": "proved",
   "theorems": [
    "C153_other_sections",
    "C153_before_the_dimensions",
    "C153_order"
   ],
   "note": "For grids of at least one cell, with fewer than 2^32 depths. The other lines do not begin with SPECGRID, COORD, ZCORN or INCLUDE; a line that only begins like a keyword (COORDSYS) is taken for it (finding of C65). C153_before_the_dimensions holds for every text, loaded or not."
  },
  {
   "property": "C154",
   "status": "partial",
   "theorems": [
    "C154_moved",
    "C154_origin_refuted"
   ],
   "note": "Proved for every outcome when the origin and the three axis points are moved together. Refuted when only the origin is changed: the reader measures the distance from the origin to the axis taken as a point, where a GOCAD file gives a vector. With the origin 1000 further, cells of 2 x 3 x 5 are loaded as 498 x 333 x 1000, without notice; with the origin at the end of an axis, the cells have no length."
  },
  {
   "property": "C155",
   "status": "partial",
   "theorems": [
    "C155_what_counts",
    "C155_depth_refuted",
    "C155_range_refuted",
    "C155_names_first_refuted"
   ],
   "note": "Proved: only the name, the origin, the three axes, the numbers of cells and the data file count. Refuted: the direction of the depths (ZPOSITIVE Depth gives the same grid as Elevation) and the range of the axes (AXIS_MIN, AXIS_MAX) are not taken into account, without notice; AXIS_NAME before AXIS_N is taken for the numbers of cells and the file is refused."
  },
  {
   "property": "C156",
   "status": "partial",
   "theorems": [
    "C156_all_stations",
    "C156_moved",
    "C156_first_station_refuted",
    "C156_interrupted_refuted"
   ],
   "note": "Proved when the first station is the reference point and the PATH lines follow each other. Refuted: a first station elsewhere is lost, without notice; with a comment, a blank line or an indented line between two stations, all the stations that follow are lost, without notice. The move supposes that the addition of coordinates is associative (true of reals, true of doubles up to rounding)."
  },
  {
   "property": "C157",
   "status": "partial",
   "theorems": [
    "C157_header",
    "C157_one_line_refuted",
    "C157_indented_brace_refuted",
    "C157_other_key_refuted"
   ],
   "note": "Proved for every reader and every outcome, when the header ends with a line that begins with the closing brace, for the first object of the file. Refuted for the layout: a header on one line (HEADER {name:s}) or with an indented closing brace goes on to the next closing brace, usually the one of a property class; the name and the coordinate system are lost and depths are loaded as elevations, without notice. Refuted for the entries: a key that ends with name: replaces the name."
  },
  {
   "property": "C158",
   "status": "proved",
   "theorems": [
    "C158_only_the_direction",
    "C158_units_refuted"
   ],
   "note": "Finding: the units are read and not used: a file in feet is loaded with the same numbers as in metres, and saved with metres (C158_units_refuted). Structural models and Voxets are not in the statement: Voxets ignore the direction of z as well (C155)."
  },
  {
   "property": "C159",
   "status": "partial",
   "theorems": [
    "C159_what_counts",
    "C159_values_refuted",
    "C159_order_refuted"
   ],
   "note": "First sentence proved for every text, for the first object of a file. Refuted: a value outside the legal range or equal to the value for no data is loaded as any other value (C159_values_refuted); the lines of the section must come in one order, UNITS before ESIZES is refused with an exception (C159_order_refuted)."
  },
  {
   "property": "C16",
   "status": "proved",
   "theorems": [
    "C16_tface_lookup"
   ],
   "note": "Lookup equals the number of TFACE lines met before the vertex line."
  },
  {
   "property": "C160",
   "status": "partial",
   "theorems": [
    "C160_more_words",
    "C160_refused_refuted",
    "C160_wells_refuted"
   ],
   "note": "Proved for surfaces, point sets and curves, for the first object of a file. Refuted for wells: a station with one more word is refused with an exception (C160_wells_refuted). It only holds for files that are loaded: the added words may be the ones that were missing (C160_refused_refuted)."
  },
  {
   "property": "C161",
   "status": "partial",
   "theorems": [
    "C161_other_lines",
    "C161_border_refuted"
   ],
   "note": "Proved for the first object of a file, for every outcome, when the numbers of the border lines are numbers. Refuted: a border or border stone cut short, although not used by the .ts reader, or a blank line, makes the loading undefined behaviour (C161_border_refuted). ATOM lines are vertices of surfaces; in point sets and curves they are among the lines that are ignored (C103, C104)."
  },
  {
   "property": "C162",
   "status": "proved",
   "theorems": [
    "C162_triangle_order",
    "C162_segment_order",
    "C162_vertex_order_refuted"
   ],
   "note": "Any permutation of consecutive triangle (segment) lines of the first surface (curve) of the file. Finding: the order of the vertex lines counts although they carry numbers (only the first number is used)."
  },
  {
   "property": "C163",
   "status": "proved",
   "theorems": [
    "C163_indicators",
    "C163_twice_refuted"
   ],
   "note": "For every outcome. Finding: a second section on the vertices is read as a tetrahedron, beyond the words of the line."
  },
  {
   "property": "C164",
   "status": "proved",
   "theorems": [
    "C164_surfaces_and_regions",
    "C164_unknown_side_refuted"
   ],
   "note": "For every outcome; the line MODEL comes just after the tetrahedra or their indicators. Finding: a region that names a surface that does not exist is loaded without a message."
  },
  {
   "property": "C17",
   "status": "proved",
   "theorems": [
    "C17_property_rows"
   ],
   "note": "Sizes below 256 (the loop index of the code is an 8-bit integer)."
  },
  {
   "property": "C18",
   "status": "partial",
   "theorems": [
    "C18_declared_properties_refuted",
    "C18_declared_properties_partial"
   ],
   "note": "False when a line stands between the coordinate system and PROPERTIES (finding). Proved when PROPERTIES directly follows."
  },
  {
   "property": "C19",
   "status": "proved",
   "theorems": [
    "C19_wl_trajectory"
   ],
   "note": "Coordinates are formed with the same additions and sign changes as the code; lines starting with PATH after another line are not read (modelled and covered by the tail)."
  },
  {
   "property": "C20",
   "status": "partial",
   "theorems": [
    "C20_well_rows_partial",
    "C20_wrong_row_throws",
    "C20_no_row_refuted"
   ],
   "note": "Every non-empty file is proved; zero rows refuted: the unsigned n-1 wraps and edges between missing vertices are created."
  },
  {
   "property": "C21",
   "status": "partial",
   "theorems": [
    "C21_dev_rows_partial",
    "C21_no_row_refuted",
    "C21_same_header_refuted"
   ],
   "note": "Every arrangement of distinct columns and at least one row is proved; zero rows and repeated headers refuted."
  },
  {
   "property": "C22",
   "status": "proved",
   "theorems": [
    "C22_vo_values"
   ],
   "note": "Distinct property names, number of cells below 2^32, rows inside the grid (rows outside are C23)."
  },
  {
   "property": "C23",
   "status": "proved",
   "theorems": [
    "C23_vo_outside_refuted",
    "C23_vo_outside_never_rejected"
   ],
   "note": "Refuted: no row outside the grid is rejected, it changes another cell or writes out of bounds (proved for every grid and every such row)."
  },
  {
   "property": "C24",
   "status": "proved",
   "theorems": [
    "C24_grdecl_corners",
    "C24_zcorn_each_once"
   ],
   "note": "Reader as a whole on every file whose sections are well formed, colocation abstract"
  },
  {
   "property": "C25",
   "status": "proved",
   "theorems": [
    "C25_grdecl_ends_refuted",
    "C25_grdecl_ends_witnesses",
    "C25_unclosed_section_hangs"
   ],
   "note": "False of the code: witnesses, and every file with an unclosed ZCORN section hangs"
  },
  {
   "property": "C26",
   "status": "proved",
   "theorems": [
    "C26_point_on_pillar"
   ],
   "note": "Exact rational arithmetic"
  },
  {
   "property": "C27",
   "status": "proved",
   "theorems": [
    "C27_dem_vertices_polygons"
   ],
   "note": "DEM reader, one vertex per pixel, one polygon per 2x2 block with its four elevations"
  },
  {
   "property": "C28",
   "status": "proved",
   "theorems": [
    "C28_dem_simple_quads_refuted",
    "C28_every_polygon_crosses"
   ],
   "note": "False of the code: every polygon is listed in a crossing order; both the witness and the general statement are proved"
  },
  {
   "property": "C29",
   "status": "proved",
   "theorems": [
    "C29_id_ranges_decode"
   ],
   "note": "Element numbers are given already incremented (1-based), as the code passes them."
  },
  {
   "property": "C30",
   "status": "proved",
   "theorems": [
    "C30_chunk_size"
   ],
   "note": "For limits of at least 22 characters, the length of the longest range plus a separator; the code uses 1500. C30_small_limit shows an empty chunk below."
  },
  {
   "property": "C31",
   "status": "proved",
   "theorems": [
    "C31_property_distribution",
    "C31_printed_values_refuted"
   ],
   "note": "Groups are distinct as values; C31_printed_values_refuted: as printed (std::to_string, six decimals) two distinct values can be the same text. Values are assumed free of NaN (femval_ok)."
  },
  {
   "property": "C32",
   "status": "partial",
   "theorems": [
    "C32_nodal_section_refuted",
    "C32_nodal_section_partial"
   ],
   "note": "Refuted: the section lists one node per polyhedron. The partial theorem says exactly what is written, and the undefined behaviour when there are more polyhedra than vertices."
  },
  {
   "property": "C33",
   "status": "partial",
   "theorems": [
    "C33_element_count_refuted",
    "C33_element_count_partial"
   ],
   "note": "Refuted; the partial theorem characterises when the announced count is right."
  },
  {
   "property": "C34",
   "status": "partial",
   "theorems": [
    "C34_material_lines_refuted",
    "C34_material_lines_partial"
   ],
   "note": "Refuted; the partial theorem characterises when the lines are separated."
  },
  {
   "property": "C35",
   "status": "proved",
   "theorems": [
    "C35_features_numbered"
   ],
   "note": ""
  },
  {
   "property": "C36",
   "status": "proved",
   "theorems": [
    "C36_region_ids",
    "C36_universe_ids",
    "C36_unit_ids",
    "C36_layout",
    "C36_large_id_refuted"
   ],
   "note": "Lists of any length and signs with |id| < 2^31 (2^32 for units). Finding: an id of 2^31 or more is written but cannot be read."
  },
  {
   "property": "C37",
   "status": "proved",
   "theorems": [
    "C37_block_topology",
    "C37_topology_exact",
    "C37_single_surface_refuted"
   ],
   "note": "Round trip of whole files for exportable models (MlRound.v, record exportable). C37_topology_exact: the reader's rule for every list of surface numbers. Findings: a block enclosed by a single surface makes loading undefined; a surface listed three times is related as boundary or not depending on its number."
  },
  {
   "property": "C38",
   "status": "proved",
   "theorems": [
    "C38_consecutive_numbers"
   ],
   "note": "Any collections, surfaces in several collections, unclassified surfaces; numbering, uniqueness and references."
  },
  {
   "property": "C39",
   "status": "proved",
   "theorems": [
    "C39_units_keep_blocks",
    "C39_universe_block_refuted"
   ],
   "note": "Finding: a block named Universe is lost and the units get the following blocks."
  },
  {
   "property": "C40",
   "status": "proved",
   "theorems": [
    "C40_types_kept",
    "C40_other_fault_types",
    "C40_fault_type_refuted",
    "C40_contact_types_not_saved",
    "C40_contact_type_refuted"
   ],
   "note": "The full statement is false: strike-slip, listric and decollement faults come back untyped; erosion and baselap horizons cannot be saved. True for the other types."
  },
  {
   "property": "C41",
   "status": "proved",
   "theorems": [
    "C41_collections_keep_surfaces",
    "C41_shared_surface_refuted",
    "C41_equal_names_refuted",
    "C41_empty_collection_refuted"
   ],
   "note": "True when every surface is in at most one collection and names are distinct; refuted for shared surfaces, equal names and empty collections."
  },
  {
   "property": "C42",
   "status": "proved",
   "theorems": [
    "C42_connected_succeeds",
    "C42_disconnected_throws",
    "C42_terminates",
    "C42_unique_up_to_inverse",
    "C42_pairs_known",
    "C42_orientation_consistent",
    "C42_signs_are_the_orientation",
    "C42_no_surface_refuted"
   ],
   "note": "for every non-empty surface list and every table; an empty list is undefined behaviour (finding)"
  },
  {
   "property": "C43",
   "status": "proved",
   "theorems": [
    "C43_start_orientation_irrelevant",
    "C43_universe_region_opposite"
   ],
   "note": "exact rational arithmetic instead of double"
  },
  {
   "property": "C44",
   "status": "partial",
   "theorems": [
    "C44_relations_exact",
    "C44_line_relations_partial",
    "C44_single_line_refuted",
    "C44_single_line_internal_refuted",
    "C44_hole_internal_refuted"
   ],
   "note": "C44_relations_exact: the relations of the border pieces, for every list of lines (a line met k times is made internal k/2 times, and a boundary when k is odd and a larger line is met, or k = 1 and another line is met). So the property holds with at least two pieces and each line met at most twice. False for a surface with a single closed border line (no relation, then made internal to the surface), for the lines of a hole (made internal), and a third meeting of the line of largest number is lost."
  },
  {
   "property": "C45",
   "status": "proved",
   "theorems": [
    "C45_vertex_numbers"
   ],
   "note": "Numbers 1, 2, 3, ... and every corner of every tetrahedron, for any consistent model."
  },
  {
   "property": "C46",
   "status": "partial",
   "theorems": [
    "C46_block_tetrahedra",
    "C46_names_with_spaces_refuted",
    "C46_equal_names_refuted",
    "C46_empty_name_refuted",
    "C149_distinct_first_words",
    "C149_blocks_with_the_same_first_word"
   ],
   "note": "True for names with distinct first words (C149_distinct_first_words). Finding: names with the same first word (or equal names) merge the tetrahedra (exactly: C149_blocks_with_the_same_first_word), an empty name loses them."
  },
  {
   "property": "C47",
   "status": "proved",
   "theorems": [
    "C47_actual_values",
    "C47_tetrahedron_values_refuted",
    "C47_single_tetrahedron_refuted"
   ],
   "note": "Refuted: tetrahedron i gets the values of the TETRA line whose number is that of the vertex line of vertex i of the block; blocks with less tetrahedra than vertices are undefined behaviour. C47_actual_values says which values are loaded, for every file."
  },
  {
   "property": "C48",
   "status": "proved",
   "theorems": [
    "C48_relations",
    "C48_only_if_refuted",
    "C48_copied_vertex_refuted"
   ],
   "note": "Finding: the converse fails (integer division of counts); files where a copied vertex precedes another vertex, or a triangle uses a copied vertex, are read outside the table of unique vertices."
  },
  {
   "property": "C49",
   "status": "proved",
   "theorems": [
    "C49_horizons_and_contacts",
    "C49_read_iff",
    "C49_texts"
   ],
   "note": "Stack before repair_horizon_stack_if_possible (OpenGeode-Geosciences, not modelled); XML parsing by pugixml trusted."
  },
  {
   "property": "C50",
   "status": "partial",
   "theorems": [
    "C50_block_numbers",
    "C50_first_unit",
    "C50_same_unit",
    "C50_block_without_unit",
    "C50_block_without_unit_refuted",
    "C50_two_units_refuted"
   ],
   "note": "BRep part proved. Structural model part true when each block is in exactly one unit. Refuted: a block in no unit dereferences the end iterator; a block in two units takes the first one only."
  },
  {
   "property": "C51",
   "status": "partial",
   "theorems": [
    "C51_fields",
    "C51_order_refuted",
    "C51_listed_twice_refuted"
   ],
   "note": "Exactly the properties defined on every block are listed, grouped by number of components. Refuted: the order of the requests is not kept, and a property requested twice is listed twice."
  },
  {
   "property": "C52",
   "status": "proved",
   "theorems": [
    "C52_section",
    "C52_open",
    "C52_closed",
    "C52_not_connected",
    "C52_one_point_refuted"
   ],
   "note": "Finding: a polyline of a single point (GDAL says it is closed) makes the reader create an edge between missing vertices."
  },
  {
   "property": "C53",
   "status": "proved",
   "theorems": [
    "C53_painted",
    "C53_main_lost_refuted",
    "C53_features_lost_refuted",
    "C53_features"
   ],
   "note": "Refuted: the aperture (conduit area) of all surfaces (lines) is lost when the first one does not define it, hence no 2D feature is written. Proved otherwise, and always for the conductivity."
  },
  {
   "property": "C54",
   "status": "proved",
   "theorems": [
    "C54_mesh_loadable",
    "C54_wl_loadable"
   ],
   "note": ""
  },
  {
   "property": "C55",
   "status": "proved",
   "theorems": [
    "C55_six_digits",
    "C55_surface",
    "C55_exact_refuted"
   ],
   "note": "Numbers are rationals, the reader's final rounding to a double is any function with relative error 2^-53. Finding: seven-digit coordinates (UTM northings in metres) are not recovered."
  },
  {
   "property": "C56",
   "status": "proved",
   "theorems": [
    "C56_area_table"
   ],
   "note": ""
  },
  {
   "property": "C57",
   "status": "proved",
   "theorems": [
    "C57_cond_table"
   ],
   "note": ""
  },
  {
   "property": "C58",
   "status": "proved",
   "theorems": [
    "C58_nodal_sets"
   ],
   "note": "Block names are tokens (they are uuid strings in the code)."
  },
  {
   "property": "C59",
   "status": "proved",
   "theorems": [
    "C59_element_sets_refuted"
   ],
   "note": "The property is false: undefined behaviour for every solid with block names and at least one polyhedron."
  },
  {
   "property": "C60",
   "status": "proved",
   "theorems": [
    "C60_mesh_sections"
   ],
   "note": ""
  },
  {
   "property": "C61",
   "status": "proved",
   "theorems": [
    "C61_coordinate_distributions"
   ],
   "note": ""
  },
  {
   "property": "C62",
   "status": "proved",
   "theorems": [
    "C62_nodal_count"
   ],
   "note": ""
  },
  {
   "property": "C63",
   "status": "proved",
   "theorems": [
    "C63_groups_section"
   ],
   "note": ""
  },
  {
   "property": "C64",
   "status": "proved",
   "theorems": [
    "C64_incidence_lines"
   ],
   "note": ""
  },
  {
   "property": "C65",
   "status": "partial",
   "theorems": [
    "C65_grdecl_included_files",
    "C65_mixed_sections_refuted",
    "C65_keyword_prefix_refuted"
   ],
   "note": "Both sections included: proved; mixed order and keyword prefix: refuted by witnesses"
  },
  {
   "property": "C66",
   "status": "partial",
   "theorems": [
    "C66_dev_not_loadable_throws",
    "C66_dev_loadable_refuted",
    "C66_dev_name_refuted",
    "C66_dev_malformed_refuted"
   ],
   "note": "Refuted; the converse direction (not loadable implies rejected) is proved."
  },
  {
   "property": "C67",
   "status": "partial",
   "theorems": [
    "C67_vo_geometry",
    "C67_vo_directions_refuted"
   ],
   "note": "Origin, numbers and lengths proved; the directions of the axes are lost (refuted)."
  },
  {
   "property": "C68",
   "status": "partial",
   "theorems": [
    "C68_vo_loadable",
    "C68_vo_data_file_refuted"
   ],
   "note": "Loadable proved; the announced data file is not the one that is read (refuted)."
  },
  {
   "property": "C69",
   "status": "proved",
   "theorems": [
    "C69_region_sides_point_inwards",
    "C69_universe_sides_point_outwards",
    "C69_regions_succeed",
    "C69_center"
   ],
   "note": "exact rational arithmetic instead of double"
  },
  {
   "property": "C70",
   "status": "proved",
   "theorems": [
    "C70_names_kept",
    "C70_spaces_refuted"
   ],
   "note": "Names without spaces (any clean name for faults, horizons, units) are kept; spaces become underscores for boundaries and blocks."
  },
  {
   "property": "C71",
   "status": "proved",
   "theorems": [
    "C71_free_surface_refuted"
   ],
   "note": "False: such a surface comes back on two boundaries."
  },
  {
   "property": "C72",
   "status": "partial",
   "theorems": [
    "C72_line_starts_partial",
    "C72_hole_refuted",
    "C72_written_stones",
    "C72_same_as_given_loops"
   ],
   "note": "False for a surface with a hole. C72_written_stones: the exact rule from the triangles and adjacencies, for any number of borders (only the corners of the border connected to the first border edge are written; all of them once when the border does not touch itself). True for surfaces with at most one border."
  },
  {
   "property": "C73",
   "status": "proved",
   "theorems": [
    "C73_cut_list_hangs",
    "C73_truncated_file_refuted"
   ],
   "note": "False: a file cut inside a list of numbers makes loading loop for ever."
  },
  {
   "property": "C74",
   "status": "proved",
   "theorems": [
    "C74_blank_line",
    "C74_blank_line_refuted"
   ],
   "note": "False: string_split of a blank line is empty and front() is undefined."
  },
  {
   "property": "C75",
   "status": "proved",
   "theorems": [
    "C75_lines_cut_the_loop",
    "C75_no_vertex_in_two_lines",
    "C75_from_triangles"
   ],
   "note": "both directions of the walk; C75_from_triangles: on the mesh itself, the loops being computed from the triangles"
  },
  {
   "property": "C76",
   "status": "proved",
   "theorems": [
    "C76_same_line_iff_same_curve",
    "C76_not_transitive_refuted"
   ],
   "note": "for a nearness that is an equivalence (e.g. equality); refuted without transitivity"
  },
  {
   "property": "C77",
   "status": "proved",
   "theorems": [
    "C77_last_pass"
   ],
   "note": "per surface"
  },
  {
   "property": "C78",
   "status": "partial",
   "theorems": [
    "C78_lines_numbered",
    "C78_surface_along_lines_partial"
   ],
   "note": "lines: proved; surfaces: proved for at least two border pieces, the line of largest number not being met three, five, ... times (its last meeting is lost, C44_relations_exact); nothing is registered for a single piece (C44_single_line_refuted)"
  },
  {
   "property": "C79",
   "status": "proved",
   "theorems": [
    "C79_vertex_values"
   ],
   "note": "For every file of complete lines that is read, headers giving each property once with sizes 1 to 255."
  },
  {
   "property": "C80",
   "status": "proved",
   "theorems": [
    "C80_relations_restored",
    "C149_relations_restored"
   ],
   "note": "Models with distinct one-word block names (C46), surfaces without common triangle, boundary triangles facets of one tetrahedron and internal triangles of two."
  },
  {
   "property": "C81",
   "status": "partial",
   "theorems": [
    "C81_reading_ends",
    "C81_cut_file_refuted"
   ],
   "note": "Refuted for files whose last line is incomplete: the reader loops for ever. True for every file of complete lines."
  },
  {
   "property": "C82",
   "status": "proved",
   "theorems": [
    "C82_collections_become_horizons"
   ],
   "note": "Refuted: every fault or model boundary with a surface of its own is loaded as a horizon."
  },
  {
   "property": "C83",
   "status": "proved",
   "theorems": [
    "C83_inspection",
    "C83_saved_model_clean"
   ],
   "note": "Files whose copied vertices follow the others and whose surfaces have no common triangle. As in C48 the division is an integer division."
  },
  {
   "property": "C84",
   "status": "proved",
   "theorems": [
    "C84_recognised_iff",
    "C84_any_indentation_refuted"
   ],
   "note": "Refuted: exactly one space of indentation is required; recognised iff some line starts with the element preceded by one space."
  },
  {
   "property": "C85",
   "status": "proved",
   "theorems": [
    "C85_values",
    "C85_success",
    "C85_type_refuted",
    "C85_reserved_name_refuted"
   ],
   "note": "Finding: a property accepted although not of the requested type, or named attribute, makes prepare_export throw."
  },
  {
   "property": "C86",
   "status": "partial",
   "theorems": [
    "C86_well_box",
    "C86_outside_refuted"
   ],
   "note": "True for perforations in the bounding box of some cell. Refuted: other perforations are ignored, and a well with only such perforations gets a box whose minimum is above its maximum. Exact order on coordinates assumed (no NaN)."
  },
  {
   "property": "C87",
   "status": "proved",
   "theorems": [
    "C87_one_point",
    "C87_several_points_refuted"
   ],
   "note": "Refuted: all the points of a layer go to one corner; true for a layer of one point."
  },
  {
   "property": "C88",
   "status": "partial",
   "theorems": [
    "C88_plain_polygon",
    "C88_holes_refuted",
    "C52_section"
   ],
   "note": "True for polygons without holes of fewer than 255 vertices. Refuted with holes: every ring becomes a polygon. Triangulation of larger rings is OpenGeode's."
  },
  {
   "property": "C89",
   "status": "proved",
   "theorems": [
    "C89_cells",
    "C89_other_block_refuted"
   ],
   "note": "Refuted for blocks without the attribute: their cells get the first value of another block. The values of the blocks that define it are proved to arrive."
  },
  {
   "property": "C90",
   "status": "proved",
   "theorems": [
    "C90_vertices",
    "C90_cells",
    "C90_solid",
    "C90_once_refuted"
   ],
   "note": "Finding: a block is listed once per vertex of its mesh at that place, so twice where the mesh is cut; unnamed blocks use their uuid on vertices and No_name on cells."
  },
  {
   "property": "C91",
   "status": "proved",
   "theorems": [
    "C91_six_decimals",
    "C91_small_values_refuted"
   ],
   "note": "Refuted for small values: everything below 5e-7 (permeabilities in square metres) is written as 0.000000. The absolute bound is proved."
  },
  {
   "property": "C92",
   "status": "partial",
   "theorems": [
    "C92_corners",
    "C92_uncut",
    "C92_cut_surface_refuted"
   ],
   "note": "C92_corners gives the exact rule for any surfaces; C92_uncut the property for surfaces with one vertex per unique vertex. Refuted for a surface cut at a vertex: the comparison of the two lists of surfaces only checks one inclusion, the missing corner depends on the direction of the edge (C92_cut_surface_refuted)."
  },
  {
   "property": "C93",
   "status": "partial",
   "theorems": [
    "C93_total",
    "C93_lines",
    "C93_partition",
    "C93_from_triangles",
    "C93_free_border_refuted",
    "C93_tip_refuted",
    "C93_shared_edge_refuted"
   ],
   "note": "C93_lines and C93_total without condition; C93_partition for loops with a corner, borders that branch at corners only and do not turn back elsewhere. C93_from_triangles: surfaces whose triangles share no directed edge are as these theorems suppose. Refuted in full: a border loop without corner has no line (C93_free_border_refuted); at the tip of a cut the line goes forth and back (C93_tip_refuted); borders that diverge at a vertex that is not a corner give overlapping lines (C93_shared_edge_refuted)."
  },
  {
   "property": "C94",
   "status": "partial",
   "theorems": [
    "C94_relations",
    "C94_exception",
    "C94_tip_refuted"
   ],
   "note": "Under the conditions of C93_partition. Finding: the end of a cut, with the surface on both sides, is recorded as a boundary (C94_tip_refuted)."
  },
  {
   "property": "C95",
   "status": "proved",
   "theorems": [
    "C95_related",
    "C95_inspect"
   ],
   "note": "C95_related without condition; C95_inspect under the conditions of C93_partition."
  },
  {
   "property": "C96",
   "status": "partial",
   "theorems": [
    "C96_accepted",
    "C96_coordinates",
    "C96_loadable",
    "C96_loadable_refuted"
   ],
   "note": "The coordinates and the refusal hold for every file made of complete lines whose property headers agree (good_header). is_loadable: a file with one PROPERTIES line that loads with a block is announced loadable. Finding: the converse is false, the names are searched as substrings of the line and the numbers of values are not looked at, so a file announced loadable can be refused (C96_loadable_refuted). Scope: find_attribute of OpenGeode is taken to throw on another type; the corners and lines built after the blocks are modelled apart (C92-C95)."
  },
  {
   "property": "C97",
   "status": "proved",
   "theorems": [
    "C97_undefined",
    "C97_elevations",
    "C97_first_row",
    "C97_misplaced_refuted",
    "C97_announced"
   ],
   "note": "Refuted: the surface has (width + 1)(height + 1) vertices and the buffer of elevations only width x height written values. Reading any image reads values that nobody wrote (C97_undefined); whatever they are, the vertex at corner i j gets the elevation of the pixel in column (i + j) mod width of row j + (i + j) / width (C97_elevations), right on the first row only (C97_first_row), wrong from the second row on (C97_misplaced_refuted). Scope: GDAL and the OpenGeode conversions are given by what they do; that a pixel is a cell of the grid is confirmed by the counts of tests/mesh/test-polytiff.cpp and the size of cea.tiff."
  },
  {
   "property": "C98",
   "status": "proved",
   "theorems": [
    "C98_level",
    "C98_silenced_refuted"
   ],
   "note": "Refuted: an image that can be opened but not loaded leaves the logger at the critical level for the rest of the program (no restoration on exception). C98_level gives the exact rule for every sequence of loadings."
  },
  {
   "property": "C99",
   "status": "proved",
   "theorems": [
    "C99_walk_ends",
    "C99_next_previous",
    "C99_loops",
    "C99_from_triangles"
   ],
   "note": "previous_on_border and next_on_border are OpenGeode's: modelled after its code, not in /repo."
  }
 ]
}