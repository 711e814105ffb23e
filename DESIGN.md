# Formal model of OpenGeode-GeosciencesIO in Rocq (Coq 8.16.1)

Source under study: `/repo` (read-only). All paths below are relative to `/repo`;
`M/` = `src/geode/geosciences_io/mesh/`, `MI/` = `src/geode/geosciences_io/model/internal/`,
`IH/` = `include/geode/geosciences_io/`.

## 1. Modelling decisions

* **Outcomes.** Every modelled C++ function that can fail returns `res A`:
  `Ok a`, `Throw e` (a C++ exception), `UB` (out-of-bounds access, `front()` of an empty
  vector, dereferenced end iterator, uninitialised read), `Hang` (an infinite loop).
  "No undefined behaviour" and "terminates" are therefore provable / refutable statements.
* **Text.** A file is a byte list. `open_text` cuts it in lines as `std::getline` does; the
  stream state is the list of remaining lines plus a flag telling whether the text ends with
  an end of line (this decides what a failing `getline` leaves in the string).
* **index_t** is `unsigned int`: values are `Z` in `[0, 2^32)` with explicit wrap-around
  (`wrap32`) wherever the code subtracts or adds.
* **double** is an abstract type with an abstract printer and parser (`Num` record); round-trip
  theorems are stated for every printer/parser such that printed text is one token that parses.
  A concrete six-digit printer is modelled separately (property "Coordinates printed with six digits").
* **External libraries** (OpenGeode, abseil, pugixml, GDAL, std) are not in the sandbox. Their
  functions used by the code are modelled from their documented behaviour in `Text.v`
  and in the per-file headers; the list is in section 4 (trusted base).

## 2. Plan, per property

| id | what is modelled | how proved |
|----|------------------|------------|
| C01 | string_split, split_string_considering_quotes, get_string_between_quote, write_string_with_quotes | induction on the name list |
| C02 | same | expected false: refutation witness (the post-increment test reads `tokens[size]`) |
| C03 | whole TSurf/VSet/PLine readers | congruence: every primitive is invariant under appending CR to a line |
| C04, C05 | ts_output.cpp and ts_input.cpp in full | induction over vertices / triangles, composition of section lemmas |
| C06 | read_tfaces, read_ilines | induction with an index-shift relation |
| C07 | read_CRS and the three vertex readers | relational induction |
| C08, C09 | ts_input.cpp loop | induction over the objects; C09 expected false: witness |
| C10 | vs_output.cpp, vs_input.cpp | as C04; empty set expected to throw: witness |
| C11-C14 | pl_output.cpp traversal, pl_input.cpp | invariants of the walk over arbitrary graphs; closed loops / isolated vertices: witnesses |
| C15 | all GOCAD readers | expected false: witness; partial: well-shaped lines never give UB |
| C16 | tface_id | induction on the offsets |
| C17 | read_properties, create_attributes | induction |
| C18 | read_prop_header | expected false: witness; partial: directly after the CRS |
| C19 | wl_input.cpp | induction on PATH lines |
| C20, C21 | well_input.hpp, well_dev_input.cpp | induction; zero rows: witness |
| C22, C23 | vo_input.cpp data file | fold invariant; C23 expected false: witness |
| C24-C26 | grdecl_input.cpp | integer arithmetic (nia/lia), induction, field over R |
| C27, C28 | dem_input.cpp | double induction; bow-tie witness |
| C29-C35 | fem_output.cpp | induction on lists; several witnesses |
| C36-C41 | ml_output_impl.hpp, ml_output_structural_model.cpp, ml_input.cpp components part | round-trip by induction, sorted-list argument, witnesses |
| C42, C43 | model/internal/gocad_common.cpp | BFS invariant |
| C44 | ml_input.cpp line-surface relations | sorted-list argument; single line witness |
| C45-C48 | lso_output.cpp, lso_input.cpp | numbering invariant, witnesses |
| C49 | horizons_stack_skua_input.cpp | induction on the unit list |
| C50, C51 | geos export | induction; witness |
| C52 | shp_input.cpp lines | induction |
| C53 | brep_fem_output.cpp | witness |
| C54 | is_loadable of the GOCAD inputs | unfolding + induction on lines |
| C55 | `operator<<(double)` six digits | rational arithmetic |

C56 and the following were added as the model grew; section 5 lists all the theorems.

## 3. What is modelled, file by file

Every definition of the model files carries the file and lines it stands for. "Model" files hold the model only;
`*Facts.v`, `*Read.v`, `*Round.v`, … hold lemmas; `Props*.v` hold the theorems, each with `Print Assumptions` and at least one
`Example` meeting its hypotheses; `Ex*.v` hold concrete instances used by the examples.

| source | model | left out |
|----|----|----|
| M/gocad_common.cpp, IH/mesh/internal/gocad_common.hpp | GocadModel.v (Grammar.v: specification of the files, whoever wrote them) | log messages |
| M/ts_input.cpp, M/ts_output.cpp, M/vs_input.cpp, M/vs_output.cpp, M/pl_input.cpp | TsModel.v, MeshModel.v | object life cycle of the OpenGeode builders |
| M/pl_output.cpp | PlModel.v | — |
| M/wl_input.cpp, M/well_dev_input.cpp, M/well_dat_input.cpp, M/well_txt_input.cpp, IH/mesh/internal/well_input.hpp | WellModel.v | — |
| M/vo_input.cpp | VoModel.v | the LightRegularGrid / RegularGrid builders (a grid is its origin, numbers of cells, lengths and attributes) |
| M/grdecl_input.cpp | GrdeclModel.v | the colocation search (NNSearch3D) is an argument |
| M/dem_input.cpp | DemModel.v | GDAL: the raster is given as width, height, elevations |
| M/geotiff_input.cpp | GeoTiff.v (order of the calls, level of the logger) | the loading and conversion of images (GDAL and OpenGeode: given by what they answer) |
| M/polytiff_input.cpp | PolyTiff.v, GeoTiff.v (level of the logger) | GDAL and the OpenGeode conversions of images and grids (given by what they do) |
| M/fem_output.cpp | FemModel.v | hash tables iterate in an arbitrary order (argument `viter`, `siter`, any permutation) |
| M/common.cpp, model/common.cpp and the extensions of the format headers | Registry.v | initialisation of the other libraries: any function on the registry; a key registered again keeps its first entry |
| MI/gocad_common.cpp | SignsModel.v | rounding of the volume sum: exact rationals |
| MI/ml_output_*.cpp, IH/model/internal/ml_output_impl.hpp, MI/ml_input.cpp | MlModel.v (components and surfaces), MlLines.v (corners and lines), Border.v (walks along borders, computed from triangles and adjacencies), GrammarMl.v (specification of files from any program), MlOut.v (specification of every component section) | SplitAlongSurfaceMeshBorders, build_model_boundaries (OpenGeode) |
| MI/lso_output.cpp, MI/lso_input.cpp | LsoModel.v (blocks, surfaces, collections, attributes), LsoLines.v (corners and lines), Border.v, GrammarLso.v (specification of the files, whoever wrote them) | SplitAlongSurfaceMeshBorders, build_model_boundaries |
| MI/strati_lso_input.cpp | StratiLso.v | is_structural_model_loadable and find_attribute of OpenGeode (assumed behaviour), the mesh type check |
| MI/horizons_stack_skua_input.cpp | SkuaModel.v | pugixml (the document tree is given), repair_horizon_stack_if_possible |
| MI/geos_export.cpp, model/helpers/*_geos_export.cpp | GeosModel.v, GeosFiles.v (files and XML document) | convert_brep_into_solid (its result is given), the inside of the VTU and VTP files, pugixml; the mesh writers throw when they cannot write their file |
| MI/shp_input.cpp | ShpModel.v | GDAL (layers, features and points are given), Polygon2D::triangulate |
| MI/brep_fem_output.cpp | BrepFemModel.v | convert_brep_into_solid (its result is given), creation of directories |
| printing and reading of doubles (not in /repo) | DecText.v, NumText.v | infinities, NaN, subnormal rounding |

Not modelled at all: the inside of the object factories (a factory is the list of its entries), the Python bindings.

## 4. Trusted base

1. **Coq's kernel** (8.16.1) and the reading of the statements. `vm_compute` is used in examples and in the concrete witnesses;
   it is part of the kernel. No kernel check is switched off. There is no `Axiom`, `Parameter`, `Admitted`, `admit`, functor or
   module type; every `Variable` and `Context` is inside a section and becomes an argument.
2. **Axioms.** `Print Assumptions` answers "Closed under the global context" for each of the 476 theorems of section 5:
   no axiom at all, not even of the standard library. (The seven constants of `Coq.ssr.ssrunder` that a checker may list belong
   to standard library modules loaded along the way and are used by no theorem.)
3. **The correspondence of model and code**, made by reading. What is not derived from /repo but assumed of the libraries:
   * `std::getline` (a failing call clears the string or leaves it, and sets eof/fail), `operator<<`, `std::to_string`,
     `std::sort` and `absl::c_sort` (a sorted permutation);
   * abseil: `StrSplit` with `SkipEmpty`, `StripAsciiWhitespace`, `StrJoin`, `StrReplaceAll`, `SimpleAtoi`, `SimpleAtob`,
     `flat_hash_map` (`emplace` keeps an existing entry; arbitrary iteration order);
   * OpenGeode basic: `string_split`, `string_to_index`, `string_to_double`, `string_starts_with`, `check_keyword`,
     `goto_keyword(s)`, `next_keyword_if_it_exists`; these were written from memory of OpenGeode's sources, which are not in the
     sandbox;
   * OpenGeode meshes and models: a builder call with an index out of range is undefined behaviour (only asserted in debug
     builds); `find_or_create_attribute` keeps an existing attribute and throws when its type differs; attributes are resized with
     the mesh; unique vertices are numbered in the order of their creation; NNSearch3D keeps the first point of a group;
   * OpenGeode surfaces: `previous_on_border` and `next_on_border` turn around a vertex through the adjacencies (Border.v), and
     adjacencies join the edges having the same vertices in opposite order; from memory of OpenGeode's sources;
   * GDAL: `OGRCurve::get_IsClosed` is true of a curve of one point.
4. **double.** In the round-trip theorems numbers are of an arbitrary type with an arbitrary printer and parser such that printed
   texts are tokens that parse (`num_ok`, `femval_ok`); C55 instantiates them with rationals printed with six significant digits.
   Geometry (volumes, pillars) is exact rational arithmetic. NaN is excluded by `femval_ok`.

## 5. Theorems

All are closed under the global context.

| id | property | status | theorems (file) |
|----|----|----|----|
| C01 | Quoted property names survive write then read | proved | `C01_quoted_names_roundtrip` (PropsText.v) |
| C02 | A missing closing quote is reported as an error | partial | `C02_missing_quote_refuted`, `C02_missing_quote_partial` (PropsText.v) |
| C03 | LF and CRLF versions of a GOCAD file load identically | proved | `C03_crlf_invariance` (PropsCrlf.v) |
| C04 | TSurf save then load preserves geometry and connectivity | proved | `C04_ts_geometry_roundtrip` (PropsTsVs.v) |
| C05 | TSurf save then load preserves vertex attributes and name | proved | `C05_ts_attributes_roundtrip` (PropsTsVs.v) |
| C06 | Vertex references do not depend on the numbering base of the file | proved | `C06_ts_numbering_base`, `C06_pl_numbering_base` (PropsShift.v) |
| C07 | ZPOSITIVE Depth negates exactly the z coordinate | proved | `C07_ts_depth`, `C07_vs_depth`, `C07_pl_depth`, `C07_ts_no_crs`, `C07_vs_no_crs`, `C07_pl_no_crs` (PropsDepth.v) |
| C08 | A file with several TSurf loads as their disjoint union | proved | `C08_disjoint_union`, `C08_saved_surfaces`, `C08_pl_disjoint_union`, `C08_vs_union`, `C08_pl_without_END_refuted`, `C08_other_size_refuted` (PropsMulti.v) |
| C09 | In a multi-object file each attribute value lands on its own object's vertex | partial | `C09_multi_object_attributes_refuted`, `C09_multi_object_attributes_partial` (PropsMulti.v); `C09_surfaces_rule`, `C09_point_sets_rule` (PropsMultiAttrs.v) |
| C10 | VSet save then load preserves points, attributes and name | partial | `C10_vs_roundtrip_partial`, `C10_vs_empty_refuted`, `C10_vs_empty_always_throws` (PropsTsVs.v) |
| C100 | FEM export of a solid completes | proved | `C100_outcome` (PropsFemTotal.v) |
| C101 | FEM export of a BRep completes | proved | `C101_preparation`, `C101_export_refuted` (PropsFemTotal.v) |
| C102 | A GOCAD surface file is loaded as it says | proved | `C102_surface`, `C102_numbers_refuted`, `C102_gap_refuted` (PropsGrammar.v) |
| C103 | A GOCAD curve file is loaded as it says | proved | `C103_curve`, `C103_atom_refuted` (PropsGrammar.v) |
| C104 | A GOCAD point set file is loaded as it says | proved | `C104_point_set`, `C104_atom_refuted` (PropsGrammar.v) |
| C105 | A GOCAD LightTSolid file is loaded as it says | proved | `C105_solid`, `C105_order_refuted` (PropsGrammarLso.v) |
| C106 | A GOCAD structural model file is loaded as it says | proved | `C106_model3d`, `C106_salt_refuted` (PropsGrammarMl.v) |
| C107 | What a saved PLine loads as, for every curve | proved | `C107_pl_rule`, `C107_same_curve` (PropsPlRule.v) |
| C108 | How loading any well file ends | proved | `C108_terminates`, `C108_rows_outcome`, `C108_wl_safe`, `C108_wl_blank_line_refuted`, `C108_dev_outcome`, `C108_dev_columns_refuted` (PropsWellOut.v) |
| C109 | How loading a Voxet ends | proved | `C109_terminates`, `C109_vo_safe`, `C109_vo_outcome`, `C109_vo_cells_refuted`, `C109_vo_one_line_refuted` (PropsVoOut.v) |
| C11 | PLine output writes every edge exactly once and terminates | proved | `C11_pl_every_edge_once` (PropsPl.v) |
| C110 | Every format is found by its extension | partial | `C110_reachable`, `C110_others_kept`, `C110_any_order`, `C110_twice`, `C110_saved_can_be_loaded`, `C110_stratigraphic_lso_refuted` (PropsRegistry.v) |
| C111 | GEOS export: the files and the document go together | proved | `C111_files`, `C111_other_directory`, `C111_completes`, `C111_trailing_slash_refuted`, `C111_document_refuted` (PropsGeosFiles.v) |
| C112 | GEOS export: the written boxes contain the perforations | partial | `C112_boxes`, `C112_refuted` (PropsGeosFiles.v) |
| C113 | How loading a structural model (.ml) ends | proved | `C113_outcome`, `C113_components`, `C113_any_file`, `C113_undefined_refuted`, `C113_blank_line_refuted`, `C113_ends_refuted` (PropsMlOut.v) |
| C114 | How loading a solid (.lso) ends | partial | `C114_ends`, `C114_defects_refuted`, `C114_cell_property_refuted`, `C114_repeated_properties` (PropsLsoOut.v) |
| C115 | Saving again what was loaded gives the same file | proved | `C115_numbers`, `C115_surface`, `C115_point_set`, `C115_doubles`, `C115_name_refuted` (PropsResave.v) |
| C116 | A loaded structural model is consistent | proved | `C116_surfaces`, `C116_relations`, `C116_disjoint_refuted` (PropsMlSound.v) |
| C117 | A loaded solid is consistent | partial | `C117_meshes`, `C117_relations`, `C117_attributes`, `C117_positions_partial`, `C117_positions_saved`, `C117_positions_refuted` (PropsLsoSound.v) |
| C118 | What is loaded is valid | proved | `C118_surface`, `C118_point_set`, `C118_curve`, `C118_rows`, `C118_dev`, `C118_wl`, `C118_voxet` (PropsValid.v) |
| C119 | Windows line ends change nothing, in any format | proved | `C119_crlf`, `C119_loadable`, `C119_announced_refuted` (PropsCrlfAll.v) |
| C12 | PLine save then load preserves the set of segments of open curves | partial | `C12_pl_open_roundtrip_partial`, `C12_pl_no_edge_refuted` (PropsPl.v) |
| C120 | The same solid is always exported as the same FEM file | partial | `C120_same_file`, `C120_same_lines`, `C120_same_file_refuted` (PropsFemOrder.v) |
| C121 | What is saved is announced loadable | proved | `C121_saved_is_loadable` (PropsSavedLoadable.v) |
| C122 | FEM discrete features are a well formed document | proved | `C122_features_document` (PropsFemXml.v) |
| C123 | FEM files have exactly the sections of the solid | proved | `C123_sections` (PropsFemSections.v) |
| C124 | FEM export accepts exactly the models whose vertices are all on blocks | proved | `C124_accepted`, `C124_every_vertex_in_a_set` (PropsFemSections.v) |
| C125 | Corners of a loaded ML model | proved | `C125_corners` (PropsMlUnique.v) |
| C126 | Unique vertices of a loaded ML model tell which vertices coincide | proved | `C126_unique_vertices`, `C126_not_transitive_refuted` (PropsMlUnique.v) |
| C127 | Structural models accepted by the LSO export are exported | partial | `C127_exported_iff`, `C127_accepted_not_exported_refuted` (PropsLsoAccept.v) |
| C128 | A GRDECL file is loaded only when its sections are complete | partial | `C128_loaded_complete`, `C128_loads_iff`, `C128_missing_pillars`, `C128_too_few_pillars_refuted` (PropsGrdeclGrid.v); `C148_loads_iff` (PropsGrdeclParts.v) |
| C129 | Neighbouring cells of a corner-point grid share their vertices | proved | `C129_shared`, `C129_split` (PropsGrdeclGrid.v) |
| C13 | PLine save then load preserves closed loops | partial | `C13_pl_loop_refuted`, `C13_pl_loop_missing_vertex_refuted`, `C13_tidy_loops_partial`, `C13_single_loop_partial` (PropsPl.v) |
| C130 | Structural models accepted by the ML export are exported | partial | `C130_exported_iff`, `C130_accepted_not_exported_refuted` (PropsMlAccept.v) |
| C131 | Comment lines in GOCAD files are ignored | partial | `C131_comments_ignored_partial`, `C131_place_refuted`, `C131_name_refuted`, `C131_quote_refuted` (PropsComments.v) |
| C132 | A GOCAD mesh file cut short is refused | partial | `C132_surface_cut`, `C132_point_set_cut`, `C132_never_loaded`, `C132_curve_cut`, `C132_curve_refuted`, `C132_inside_line_refuted`, `C132_next_object_refuted` (PropsCut.v) |
| C133 | A saved GOCAD file is made of whole objects and announces elevations in metres | proved | `C133_surface`, `C133_point_set`, `C133_curve`, `C133_solid_model`, `C133_model`, `C133_surface_classes`, `C133_point_set_classes`, `C133_curve_classes` (PropsObjects.v) |
| C134 | Which shapefiles are loaded, how loading ends, and the consistency of the section | proved | `C134_loaded`, `C134_ends` (PropsShpEnd.v) |
| C135 | Which elevation rasters are loaded, and the surface that is loaded | proved | `C135_size`, `C135_mesh` (PropsDemEnd.v) |
| C136 | The order of the units in a SKUA column file does not matter | proved | `C136_order`, `C136_unnamed_refuted` (PropsSkuaOrder.v) |
| C137 | A well file cut short never gives a wrong trajectory | proved | `C137_wl`, `C137_rows`, `C137_dev`, `C137_noticed_refuted` (PropsCutWell.v) |
| C138 | A structural model file cut short is never loaded as another model | proved | `C138_cut`, `C138_refused_refuted` (PropsCutMl.v) |
| C139 | A .lso file cut short never gives another model than a part of its own | proved | `C139_cut`, `C139_noticed_refuted`, `C139_safe_refuted` (PropsCutLso.v) |
| C14 | PLine save then load preserves vertices, name and attributes | proved | `C14_pl_name_attributes_lost`, `C14_pl_vertices_refuted` (PropsPl.v) |
| C140 | A grid file cut short never gives another grid | proved | `C140_voxet`, `C140_voxet_data`, `C140_grdecl`, `C140_data_noticed_refuted`, `C140_grdecl_ends_refuted`, `C140_grdecl_safe_refuted` (PropsCutGrid.v) |
| C141 | Objects of other kinds in a GOCAD file change nothing | proved | `C141_surfaces`, `C141_points`, `C141_lines`, `C141_between_surfaces`, `C141_between_points`, `C141_between_lines`, `C141_saved_surface`, `C141_saved_points`, `C141_saved_line`, `C141_empty_set_refuted` (PropsMixed.v) |
| C142 | Models accepted by the ML export are exported, with the sides found from their geometry | proved | `C142_structural_model`, `C142_brep`, `C142_reloaded`, `C142_accepted_not_exported_refuted` (PropsMlBrep.v) |
| C143 | Structural models accepted by the LSO export are exported, with the sides found from their geometry | proved | `C143_exported_iff`, `C143_reloaded`, `C143_without_boundary` (PropsLsoSides.v) |
| C144 | Saving again a curve loaded from a .pl file gives the same file | proved | `C144_pl_again`, `C144_pl_again_same_file`, `C144_pl_again_loop_refuted` (PropsPlAgain.v) |
| C145 | A solid loaded from a .lso file can be saved again to .lso | proved | `C145_loaded_not_saved`, `C145_saved_again`, `C145_saved_again_refuted` (PropsLsoAgain.v) |
| C146 | A structural model loaded from a .ml file can be saved again to .ml | proved | `C146_loaded_saved`, `C146_saved_again`, `C146_saved_again_refuted` (PropsMlAgain.v); `C147_second_file` (PropsMlOwn.v) |
| C147 | What an exported .ml file needs to be loaded again | proved | `C147_loaded_again_needs`, `C147_as_many_surfaces`, `C147_second_file` (PropsMlOwn.v) |
| C148 | Which corner-point grids are loaded when sections are in included files | partial | `C148_loads_iff`, `C148_loaded_as`, `C148_place_does_not_matter`, `C148_section_not_found`, `C148_name_without_underscore`, `C148_any_name_refuted` (PropsGrdeclParts.v) |
| C149 | What an .lso file keeps of the names of the blocks | proved | `C149_rest_of_names_lost`, `C149_distinct_first_words`, `C149_relations_restored`, `C149_blocks_with_the_same_first_word` (PropsLsoNames.v) |
| C15 | Malformed GOCAD text leads to an exception, never to undefined behaviour | partial | `C15_no_undefined_behaviour_refuted`, `C15_terminates_partial`, `C15_well_shaped_partial` (PropsGocad.v); `C15_point_sets_partial`, `C15_surfaces_partial`, `C15_curves_partial`, `C15_short_properties_refuted`, `C15_missing_vertex_refuted` (PropsGocadSafe.v) |
| C150 | How the numbers of a GRDECL file may be laid out | partial | `C150_depths_on_any_lines`, `C150_other_word_in_depths`, `C150_other_line_in_pillars`, `C150_blank_line_between_pillars`, `C150_eclipse_words`, `C150_pillars_on_any_lines_refuted` (PropsGrdeclLayout.v) |
| C151 | The spacing inside the lines of a file does not matter | partial | `C151_spacing`, `C151_loadable`, `C151_voxet`, `C151_grid`, `C151_more_blanks`, `C151_indented_rows`, `C151_first_line_refuted`, `C151_indented_refuted`, `C151_data_file_refuted` (PropsSpacing.v) |
| C152 | The rows of a Voxet data file may come in any order | proved | `C152_rows_in_any_order`, `C152_same_outcome`, `C152_two_rows_for_a_cell_refuted` (PropsVoRows.v) |
| C153 | Other sections in a GRDECL file change nothing | proved | `C153_other_sections`, `C153_before_the_dimensions`, `C153_order` (PropsGrdeclOther.v) |
| C154 | A Voxet that is moved keeps its cells | partial | `C154_moved`, `C154_origin_refuted` (PropsVoAxes.v) |
| C155 | The lines of a Voxet file that count | partial | `C155_what_counts`, `C155_depth_refuted`, `C155_range_refuted`, `C155_names_first_refuted` (PropsVoAxes.v) |
| C156 | All the stations of a .wl file are loaded | partial | `C156_all_stations`, `C156_moved`, `C156_first_station_refuted`, `C156_interrupted_refuted` (PropsWellStations.v) |
| C157 | The header of a GOCAD object only gives its name | partial | `C157_header`, `C157_one_line_refuted`, `C157_indented_brace_refuted`, `C157_other_key_refuted` (PropsHeader.v) |
| C158 | The coordinate system of a GOCAD object only gives the direction of z | proved | `C158_only_the_direction`, `C158_units_refuted` (PropsCrsOnly.v) |
| C159 | What counts in the properties section of a GOCAD object | partial | `C159_what_counts`, `C159_values_refuted`, `C159_order_refuted` (PropsPropsOnly.v) |
| C16 | Vertex-to-TFace lookup returns the owning TFace | proved | `C16_tface_lookup` (PropsGocad.v) |
| C160 | Words at the end of the data lines change nothing | partial | `C160_more_words`, `C160_refused_refuted`, `C160_wells_refuted` (PropsMoreWords.v) |
| C161 | Lines that are neither vertices nor cells change nothing | partial | `C161_other_lines`, `C161_border_refuted` (PropsDataLines.v) |
| C162 | The order of the triangles of a surface and of the segments of a curve does not matter | proved | `C162_triangle_order`, `C162_segment_order`, `C162_vertex_order_refuted` (PropsCellOrder.v) |
| C163 | The region indicators of a solid change nothing | proved | `C163_indicators`, `C163_twice_refuted` (PropsIndicators.v) |
| C164 | What counts in the surfaces and regions of a solid | proved | `C164_surfaces_and_regions`, `C164_unknown_side_refuted` (PropsSolidLines.v) |
| C17 | Property rows are read completely or rejected | proved | `C17_property_rows` (PropsGocad.v) |
| C18 | Properties declared in the file header are loaded | partial | `C18_declared_properties_refuted`, `C18_declared_properties_partial` (PropsGocad.v) |
| C19 | Well (.wl) trajectory | proved | `C19_wl_trajectory` (PropsWell.v) |
| C20 | Well .dat/.txt trajectory | partial | `C20_well_rows_partial`, `C20_wrong_row_throws`, `C20_no_row_refuted` (PropsWell.v) |
| C21 | Well .dev columns reach the right attribute | partial | `C21_dev_rows_partial`, `C21_no_row_refuted`, `C21_same_header_refuted` (PropsWell.v) |
| C22 | Voxet cell values | proved | `C22_vo_values` (PropsVo.v) |
| C23 | A Voxet data row outside the grid is rejected | proved | `C23_vo_outside_refuted`, `C23_vo_outside_never_rejected` (PropsVo.v) |
| C24 | GRDECL cell corners use the right pillar and depth | proved | `C24_grdecl_corners`, `C24_zcorn_each_once` (PropsGrdecl.v) |
| C25 | GRDECL loading terminates within the arrays on every file | proved | `C25_grdecl_ends_refuted`, `C25_grdecl_ends_witnesses`, `C25_unclosed_section_hangs` (PropsGrdecl.v) |
| C26 | GRDECL corner is on its pillar at its depth | proved | `C26_point_on_pillar` (PropsGrdecl.v) |
| C27 | DEM surface: one vertex per valid pixel, one polygon per complete quad | proved | `C27_dem_vertices_polygons` (PropsDem.v) |
| C28 | DEM polygons are simple quadrilaterals | proved | `C28_dem_simple_quads_refuted`, `C28_every_polygon_crosses` (PropsDem.v) |
| C29 | FEM id ranges decode to exactly the given elements | proved | `C29_id_ranges_decode` (PropsFem.v) |
| C30 | FEM id chunks respect the size limit and are never empty | proved | `C30_chunk_size` (PropsFem.v) |
| C31 | FEM property distribution lists every element under its value exactly once | proved | `C31_property_distribution`, `C31_printed_values_refuted` (PropsFem.v) |
| C32 | FEM nodal property section covers every node | partial | `C32_nodal_section_refuted`, `C32_nodal_section_partial` (PropsFem.v) |
| C33 | FEM declared number of element properties equals the number written | partial | `C33_element_count_refuted`, `C33_element_count_partial` (PropsFem.v) |
| C34 | FEM material lists put each entry on its own line | partial | `C34_material_lines_refuted`, `C34_material_lines_partial` (PropsFem.v) |
| C35 | FEM discrete features are numbered consecutively | proved | `C35_features_numbered` (PropsFem.v) |
| C36 | ML id lists survive line wrapping | proved | `C36_region_ids`, `C36_universe_ids`, `C36_unit_ids`, `C36_layout`, `C36_large_id_refuted` (PropsMl.v) |
| C37 | ML block topology round trip | proved | `C37_block_topology`, `C37_single_surface_refuted` (PropsMl.v); `C37_topology_exact` (PropsMlRelations.v) |
| C38 | ML components are numbered consecutively and uniquely | proved | `C38_consecutive_numbers` (PropsMl.v) |
| C39 | ML stratigraphic units and fault blocks keep their blocks | proved | `C39_units_keep_blocks`, `C39_universe_block_refuted` (PropsMl.v) |
| C40 | ML fault and horizon types round trip | proved | `C40_types_kept`, `C40_other_fault_types`, `C40_fault_type_refuted`, `C40_contact_types_not_saved`, `C40_contact_type_refuted` (PropsMl.v) |
| C41 | ML surface membership round trip | proved | `C41_collections_keep_surfaces`, `C41_shared_surface_refuted`, `C41_equal_names_refuted`, `C41_empty_collection_refuted` (PropsMl.v) |
| C42 | Side determination finds the consistent orientation | proved | `C42_connected_succeeds`, `C42_disconnected_throws`, `C42_terminates`, `C42_unique_up_to_inverse`, `C42_pairs_known`, `C42_orientation_consistent`, `C42_signs_are_the_orientation`, `C42_no_surface_refuted` (PropsSigns.v) |
| C43 | Universe and region sides are opposite | proved | `C43_start_orientation_irrelevant`, `C43_universe_region_opposite` (PropsSigns.v) |
| C44 | Line-surface relations of a loaded ML model | partial | `C44_relations_exact` (PropsMlRelations.v); `C44_line_relations_partial`, `C44_single_line_refuted`, `C44_single_line_internal_refuted`, `C44_hole_internal_refuted` (PropsMlLines.v) |
| C45 | LSO vertex numbering resolves every tetrahedron corner to its own point | proved | `C45_vertex_numbers` (PropsLso.v) |
| C46 | LSO blocks keep their tetrahedra | partial | `C46_block_tetrahedra`, `C46_names_with_spaces_refuted`, `C46_equal_names_refuted`, `C46_empty_name_refuted` (PropsLso.v); `C149_distinct_first_words`, `C149_blocks_with_the_same_first_word` (PropsLsoNames.v) |
| C47 | LSO tetrahedron properties land on their tetrahedron | proved | `C47_actual_values`, `C47_tetrahedron_values_refuted`, `C47_single_tetrahedron_refuted` (PropsLso.v) |
| C48 | LSO surface-block relations | proved | `C48_relations`, `C48_only_if_refuted`, `C48_copied_vertex_refuted` (PropsLso.v) |
| C49 | Stratigraphic column horizons and contact types | proved | `C49_horizons_and_contacts`, `C49_read_iff`, `C49_texts` (PropsSkua.v) |
| C50 | GEOS region numbers | partial | `C50_block_numbers`, `C50_first_unit`, `C50_same_unit`, `C50_block_without_unit`, `C50_block_without_unit_refuted`, `C50_two_units_refuted` (PropsGeos.v) |
| C51 | GEOS exported fields | partial | `C51_fields`, `C51_order_refuted`, `C51_listed_twice_refuted` (PropsGeos.v) |
| C52 | Shapefile lines | proved | `C52_section`, `C52_open`, `C52_closed`, `C52_not_connected`, `C52_one_point_refuted` (PropsShp.v) |
| C53 | Fracture apertures of every surface reach the FEM export | proved | `C53_painted`, `C53_main_lost_refuted`, `C53_features_lost_refuted`, `C53_features` (PropsBrepFem.v) |
| C54 | A file is announced loadable iff the reader finds its object | proved | `C54_mesh_loadable` (PropsGocad.v); `C54_wl_loadable` (PropsWell.v) |
| C55 | Coordinates printed with six digits | proved | `C55_six_digits`, `C55_surface`, `C55_exact_refuted` (PropsDec.v) |
| C56 | FEM AREA table lists every discrete feature once under its own value | proved | `C56_area_table` (PropsFem.v) |
| C57 | FEM COND table lists exactly the features with a positive conductivity | proved | `C57_cond_table` (PropsFem.v) |
| C58 | FEM nodal sets list every vertex under each of its blocks | proved | `C58_nodal_sets` (PropsFem.v) |
| C59 | FEM element sets list every polyhedron under its block | proved | `C59_element_sets_refuted` (PropsFem.v) |
| C60 | FEM mesh sections describe the solid | proved | `C60_mesh_sections` (PropsFem.v) |
| C61 | FEM coordinate distributions list every vertex once under its own coordinate | proved | `C61_coordinate_distributions` (PropsFem.v) |
| C62 | FEM announced number of nodal distributions equals the number written | proved | `C62_nodal_count` (PropsFem.v) |
| C63 | FEM group section lists the features of each group | proved | `C63_groups_section` (PropsFem.v) |
| C64 | FEM incidence section gives the nodes of each feature in order | proved | `C64_incidence_lines` (PropsFem.v) |
| C65 | GRDECL sections can be in included files | partial | `C65_grdecl_included_files`, `C65_mixed_sections_refuted`, `C65_keyword_prefix_refuted` (PropsGrdecl.v) |
| C66 | Well .dev files announced loadable can be read, with their whole name | partial | `C66_dev_not_loadable_throws`, `C66_dev_loadable_refuted`, `C66_dev_name_refuted`, `C66_dev_malformed_refuted` (PropsWell.v) |
| C67 | Voxet geometry | partial | `C67_vo_geometry`, `C67_vo_directions_refuted` (PropsVo.v) |
| C68 | Voxet: announced files | partial | `C68_vo_loadable`, `C68_vo_data_file_refuted` (PropsVo.v) |
| C69 | Region sides tell where the normals point | proved | `C69_region_sides_point_inwards`, `C69_universe_sides_point_outwards`, `C69_regions_succeed`, `C69_center` (PropsSigns.v) |
| C70 | ML names round trip | proved | `C70_names_kept`, `C70_spaces_refuted` (PropsMl.v) |
| C71 | ML surfaces in no collection | proved | `C71_free_surface_refuted` (PropsMl.v) |
| C72 | ML border lines are all exported | partial | `C72_line_starts_partial`, `C72_hole_refuted` (PropsMl.v); `C72_written_stones`, `C72_same_as_given_loops` (PropsBorder.v) |
| C73 | Loading a truncated ML file ends | proved | `C73_cut_list_hangs`, `C73_truncated_file_refuted` (PropsMl.v) |
| C74 | Blank lines in an ML file are harmless | proved | `C74_blank_line`, `C74_blank_line_refuted` (PropsMl.v) |
| C75 | Border lines of a loaded ML model cut the border at its corners | proved | `C75_lines_cut_the_loop`, `C75_no_vertex_in_two_lines` (PropsMlLines.v); `C75_from_triangles` (PropsBorder.v) |
| C76 | Lines shared by surfaces are recognised | proved | `C76_same_line_iff_same_curve`, `C76_not_transitive_refuted` (PropsMlLines.v) |
| C77 | The last pass of an ML load only adds internal lines lying on the surface | proved | `C77_last_pass` (PropsMlLines.v) |
| C78 | Unique vertices of the lines of a loaded ML model | partial | `C78_lines_numbered`, `C78_surface_along_lines_partial` (PropsMlLines.v) |
| C79 | LSO vertex properties land on their vertex | proved | `C79_vertex_values` (PropsLso.v) |
| C80 | LSO save and load restores the surfaces around and inside blocks | proved | `C80_relations_restored` (PropsLso.v); `C149_relations_restored` (PropsLsoNames.v) |
| C81 | Reading an .lso file terminates | partial | `C81_reading_ends`, `C81_cut_file_refuted` (PropsLso.v) |
| C82 | LSO faults and model boundaries keep their kind | proved | `C82_collections_become_horizons` (PropsLso.v) |
| C83 | LSO files to inspect are signalled | proved | `C83_inspection`, `C83_saved_model_clean` (PropsLso.v) |
| C84 | SKUA column files recognised | proved | `C84_recognised_iff`, `C84_any_indentation_refuted` (PropsSkua.v) |
| C85 | GEOS cell values | proved | `C85_values`, `C85_success`, `C85_type_refuted`, `C85_reserved_name_refuted` (PropsGeos.v) |
| C86 | GEOS well boxes | partial | `C86_well_box`, `C86_outside_refuted` (PropsGeos.v) |
| C87 | Shapefile points | proved | `C87_one_point`, `C87_several_points_refuted` (PropsShp.v) |
| C88 | Shapefile polygons | partial | `C88_plain_polygon`, `C88_holes_refuted`, `C52_section` (PropsShp.v) |
| C89 | Block attributes reach the cells of the FEM export | proved | `C89_cells`, `C89_other_block_refuted` (PropsBrepFem.v) |
| C90 | Block names of cells and vertices of the FEM export | proved | `C90_vertices`, `C90_cells`, `C90_solid`, `C90_once_refuted` (PropsBrepFem.v) |
| C91 | Cell properties of a FEM file are printed with six decimals | proved | `C91_six_decimals`, `C91_small_values_refuted` (PropsDec.v) |
| C92 | LSO corners are where the surfaces change along a border | partial | `C92_corners`, `C92_uncut`, `C92_cut_surface_refuted` (PropsLsoLines.v) |
| C93 | LSO lines partition the borders of the surfaces | partial | `C93_total`, `C93_lines`, `C93_partition`, `C93_free_border_refuted`, `C93_tip_refuted`, `C93_shared_edge_refuted` (PropsLsoLines.v); `C93_from_triangles` (PropsBorder.v) |
| C94 | LSO line-surface relations follow the borders | partial | `C94_relations`, `C94_exception`, `C94_tip_refuted` (PropsLsoLines.v) |
| C95 | LSO lines inside an uncut surface are signalled | proved | `C95_related`, `C95_inspect` (PropsLsoLines.v) |
| C96 | Stratigraphic coordinates of a loaded LSO file | partial | `C96_accepted`, `C96_coordinates`, `C96_loadable`, `C96_loadable_refuted` (PropsStratiLso.v) |
| C97 | Elevations of a surface loaded from a GeoTIFF image | proved | `C97_undefined`, `C97_elevations`, `C97_first_row`, `C97_misplaced_refuted` (PropsPolyTiff.v); `C97_announced` (PropsGeoTiff.v) |
| C98 | Loading GeoTIFF files leaves the verbosity of the logger unchanged | proved | `C98_level`, `C98_silenced_refuted` (PropsGeoTiff.v) |
| C99 | Walking along the border of a surface | proved | `C99_walk_ends`, `C99_next_previous`, `C99_loops`, `C99_from_triangles` (PropsBorder.v) |


## 6. Findings

Claims that are false of the model (a `_refuted` theorem gives the witness, or says that it happens always) and restrictions of the
others.

* **C02** A missing closing quote is reported as an error. the full claim (an exception) is false of the code: the loop reads past the end; the partial theorem characterises exactly when (`C02_missing_quote_refuted`)
* **C08** A file with several TSurf loads as their disjoint union. Files made of any number of surfaces, and of saved surfaces: points concatenated, triangles shifted, every corner inside its own object; curves and point sets likewise. The PLine case needs the first file to end with END: without it the claim is false (witness). Finding: when two objects of the file declare the same property with different numbers of values the whole load throws (witness), which the theorems exclude by same_kinds. (`C08_pl_without_END_refuted`, `C08_other_size_refuted`)
* **C09** In a multi-object file each attribute value lands on its own object's vertex. False: the property values of a later object overwrite those of the first vertices (finding). Proved instead: the exact rule for any number of saved surfaces or point sets (vertex v of the whole mesh carries the value of vertex v of the last object having the property and more than v vertices, else the no-data value), and for any files, when what follows declares no property, all values stay on their own vertex. (`C09_multi_object_attributes_refuted`)
* **C10** VSet save then load preserves points, attributes and name. false for the empty point set: its file cannot be loaded; proved for every non-empty one (`C10_vs_empty_refuted`, `C10_vs_empty_always_throws`)
* **C100** FEM export of a solid completes. Exact rule. Finding: reading outside an attribute when a vertex attribute is exported with more polyhedra than vertices, and reading dead names when cells have block names; otherwise a file or a data exception. 
* **C101** FEM export of a BRep completes. Refuted: the export of every BRep with at least one cell (and no attribute to transfer called Block_ID_polyhedron) is undefined (names of blocks of cells, C59). The preparation of the solid is proved total, except for a block without cells that has an attribute to transfer (undefined: its value of cell 0 is read) and for an attribute of numbers to transfer called Block_ID_polyhedron (the export throws). (`C101_export_refuted`)
* **C102** A GOCAD surface file is loaded as it says. Grammar.v specifies the files without reference to the reader. Findings: the numbers of the vertices are not used, only the first one: with numbers 1, 3, 2 the triangles silently join other vertices (C102_numbers_refuted), with numbers 1, 2, 4 a triangle refers to a vertex outside the mesh (C102_gap_refuted). Property sizes are assumed below 256 (ESIZES are stored in 8 bits, see small_sizes) and property names distinct and different from points. (`C102_numbers_refuted`, `C102_gap_refuted`)
* **C103** A GOCAD curve file is loaded as it says. Finding: ATOM lines of a PLine are ignored: the vertex is lost and the segments that follow silently join other vertices (C103_atom_refuted). (`C103_atom_refuted`)
* **C104** A GOCAD point set file is loaded as it says. Finding: ATOM lines of a VSet are ignored, their points are lost (C104_atom_refuted). Same restrictions on properties as C102. (`C104_atom_refuted`)
* **C105** A GOCAD LightTSolid file is loaded as it says. For all files of the grammar of GrammarLso.v whose references are to declared vertices. Files with TETRA_ properties only under enough_cells (C47: the reader uses the number of a vertex as the number of a tetrahedron). Finding (C105_order_refuted): an original vertex declared after a copy shifts the numbering; a copy of it is looked up outside the list. (`C105_order_refuted`)
* **C106** A GOCAD structural model file is loaded as it says. Finding: a block enclosed by one closed surface (a REGION with one number) is undefined behaviour (C106_salt_refuted). The lines and corners built from the borders are C44 and C78. (`C106_salt_refuted`)
* **C108** How loading any well file ends. Finding: undefined behaviour for an empty .dat/.txt file, a .dev file without rows, a .dev header with X, Y or Z repeated or without a line of column names, and a blank line in the coordinate system section of a .wl file. (`C108_wl_blank_line_refuted`, `C108_dev_columns_refuted`)
* **C109** How loading a Voxet ends. Finding: an AXIS_N line with fewer than three numbers reads past its words; a data file made of one line without line feed loads, its words taken as property names. (`C109_vo_cells_refuted`, `C109_vo_one_line_refuted`)
* **C110** Every format is found by its extension. Proved for all readers and writers but one. False (finding) of the reader of stratigraphic .lso files (strati_lso_input.cpp): it is compiled but never registered, so no stratigraphic model can be loaded from an .lso file. (`C110_stratigraphic_lso_refuted`)
* **C111** GEOS export: the files and the document go together. Findings: when the directory is given with a slash at the end, the files have an empty name (.vtu, _simulation.xml); when the XML document cannot be written the export ends normally without it (result of save_file ignored). (`C111_trailing_slash_refuted`, `C111_document_refuted`)
* **C112** GEOS export: the written boxes contain the perforations. Bounds are printed with six significant digits (absl::StrCat of a double): they bound the perforations to within five millionths of the largest coordinate, and exactly when the coordinates are at most 19. Refuted with usual map coordinates: a cell up to 451234.4 m gives an upper bound of 451234, below a perforation at 451234.3 m. (`C112_refuted`)
* **C113** How loading a structural model (.ml) ends. Exact: under file_ok, loading is defined and ends if and only if every model text of the file fits. Findings (refuted that loading always succeeds or throws): blank line, short TFACE line, region with one surface, unknown surface number, -2^31 as a surface number, object with too few TFACE sections, triangle across sections (undefined behaviour); list without its final zero (endless loop). (`C113_undefined_refuted`, `C113_blank_line_refuted`, `C113_ends_refuted`)
* **C114** How loading a solid (.lso) ends. The conditions are sufficient; each of them is needed (files with one defect whose loading is undefined behaviour: 14 kinds in C114_defects_refuted, tetrahedron properties in C114_cell_property_refuted), but a file that breaks a condition after an error that throws is refused, so they are not the exact conditions. Findings: a file that ends after its vertices, a copy of an unknown vertex or of a copy, a tetrahedron or triangle with an unknown vertex, a triangle on a copy, missing words. (`C114_defects_refuted`, `C114_cell_property_refuted`)
* **C115** Saving again what was loaded gives the same file. Proved, for attributes returned in the same order by attribute_names (unspecified by OpenGeode). A name with quotes or repeated blanks is written differently the second time (C115_name_refuted). (`C115_name_refuted`)
* **C116** A loaded structural model is consistent. For every text that the model loads. Finding: a surface can be at the same time a boundary and an internal surface of a block, when its number is given three times. A triangle with a vertex out of its section is undefined behaviour in the model, so the claim on triangles is about loads with defined behaviour. (`C116_disjoint_refuted`)
* **C117** A loaded solid is consistent. For every text that the model loads. Refuted for the positions: when a copy (SHAREDVRTX) comes before a vertex, its number is used both as vertex and as unique vertex number, and two vertices at different places get the same unique vertex; true when the copies come last in the run of vertex lines, in particular in every file saved by the library (C117_positions_saved). (`C117_positions_refuted`)
* **C119** Windows line ends change nothing, in any format. Meshes of GOCAD are C03. Finding: the data file announced by additional_files for a Voxet with CR LF ends with a CR and is said to be missing, while the reader removes it. (`C119_announced_refuted`)
* **C12** PLine save then load preserves the set of segments of open curves. Holds for every curve with an edge; false for a curve without edge, whose file cannot be loaded. (`C12_pl_no_edge_refuted`)
* **C120** The same solid is always exported as the same FEM file. Finding: NODALSETS and the materials of the discrete features are written in the order of a hash table, so two runs may write different files (with two materials even the lines differ, the last one carries the end of the CDATA). Without nodal sets and discrete features the file is the same; with nodal sets only, the lines are the same up to order. Sorting is assumed to give the same result for the same pairwise different values in another order. (`C120_same_file_refuted`)
* **C126** Unique vertices of a loaded ML model tell which vertices coincide. For an equivalence. Finding: with a distance test that is not transitive, two vertices that are not near each other may share a unique vertex (three corners in a chain). (`C126_not_transitive_refuted`)
* **C127** Structural models accepted by the LSO export are exported. Exact condition. Refuted as stated: is_saveable accepts models whose export throws (first boundary of a block in no horizon, fault or model boundary) or is undefined (block without boundary, surface vertex on no block). (`C127_accepted_not_exported_refuted`)
* **C128** A GRDECL file is loaded only when its sections are complete. Refuted for the pillars: a COORD section with too few pillars is accepted and the missing pillars have both ends at the origin (C128_missing_pillars, C128_too_few_pillars_refuted). Proved for every text: the depths are exactly 8 nx ny nz, the pillars at most (nx+1)(ny+1), the cells nx ny nz; exact condition for loading when no section is included (C128_loads_iff), and for included sections (C148_loads_iff). (`C128_too_few_pillars_refuted`)
* **C13** PLine save then load preserves closed loops. Refuted: the closing segment uses the number of the vertex in the curve instead of the one in the file; the loaded curve has wrong segments or the loading is undefined behaviour. Proved: the segments are kept for curves made of loops only, numbered loop after loop with the first edge of each loop beginning at the vertex of the same number; for a single loop, when its first edge begins at vertex 0. (`C13_pl_loop_refuted`, `C13_pl_loop_missing_vertex_refuted`)
* **C130** Structural models accepted by the ML export are exported. Refuted: accepted models with an erosion or baselap horizon, an unnamed fault, horizon, unit or fault block, a surface without triangle (undefined behaviour), or a block boundary that is only in another kind of collection are not exported. Proved: a sound model is exported exactly when it is writable. (`C130_accepted_not_exported_refuted`)
* **C131** Comment lines in GOCAD files are ignored. Proved for every file and every comment without the text name: and without a lone quote, placed anywhere but directly before HEADER, GOCAD_ORIGINAL_COORDINATE_SYSTEM and PROPERTIES. Findings: a comment directly before one of these three lines makes the load fail or silently ignores the coordinate system (depths not negated) or the properties; a commented name in the header replaces the name; a lone quote in a comment of the coordinate system is undefined behaviour. (`C131_place_refuted`, `C131_name_refuted`, `C131_quote_refuted`)
* **C132** A GOCAD mesh file cut short is refused. Proved for surfaces and point sets cut between two lines: the exception, for every loadable file. Refuted for curves: cut after ILINE they are loaded without notice as the beginning of the curve (C132_curve_cut, C132_curve_refuted). Refuted inside a line: never loaded, but the missing words are read out of bounds (C132_inside_line_refuted). Refuted when another object follows: the two surfaces are merged and the triangles of the second join vertices of the first (C132_next_object_refuted). (`C132_curve_refuted`, `C132_inside_line_refuted`, `C132_next_object_refuted`)
* **C135** Which elevation rasters are loaded, and the surface that is loaded. Finding: with 2^32 pixels or more (65536 x 65536) the products of the sizes wrap on 32 bits and the arrays are accessed out of bounds (undefined behaviour). GDAL is not modelled: the raster is its width, height and elevations, the array of elevations having the length computed by the code. Vertices that are in no polygon are kept, isolated. 
* **C136** The order of the units in a SKUA column file does not matter. For the stack handed to repair_horizon_stack_if_possible (OpenGeode-Geosciences), which is not modelled. Finding: entries without a name are all taken for one horizon whose name is empty (C136_unnamed_refuted). (`C136_unnamed_refuted`)
* **C137** A well file cut short never gives a wrong trajectory. Up to 2^32 points. Finding: a well cut inside its trajectory loads silently as a shorter well, in the three formats (GOCAD's END line is not required): C137_noticed_refuted. A .dev file cut right after its header is undefined behaviour (case named in C137_dev; finding of C21); likewise an empty .dat or .txt file (C20). (`C137_noticed_refuted`)
* **C138** A structural model file cut short is never loaded as another model. Full statement but for the ending: no incomplete model is ever returned and nothing is undefined. Finding: a file that stops inside the list of numbers of a region, layer or fault block is not refused, the reader loops forever (C138_refused_refuted; this is the only such case: in_list in C138_cut). (`C138_refused_refuted`)
* **C139** A .lso file cut short never gives another model than a part of its own. Proved as stated. Finding: a .lso file cut in its surfaces or blocks loads silently as an incomplete model (C139_noticed_refuted). Finding: cut in the vertices or the tetrahedra, words are read outside their list (C139_safe_refuted). (`C139_noticed_refuted`, `C139_safe_refuted`)
* **C14** PLine save then load preserves vertices, name and attributes. Refuted: isolated vertices, name and attributes are lost. (`C14_pl_name_attributes_lost`, `C14_pl_vertices_refuted`)
* **C140** A grid file cut short never gives another grid. Proved as stated. Findings: a Voxet data file cut short loads silently, the missing cells have the value 0 (C140_data_noticed_refuted); a GRDECL file cut in its pillars or depths makes the reader loop for ever (C140_grdecl_ends_refuted) or, after the first line of a pillar on two lines, read words that do not exist (C140_grdecl_safe_refuted). (`C140_data_noticed_refuted`, `C140_grdecl_ends_refuted`, `C140_grdecl_safe_refuted`)
* **C141** Objects of other kinds in a GOCAD file change nothing. Finding: a saved point set without point, refused when alone (C10), takes the vertices of the object behind it when there is one (C141_empty_set_refuted). (`C141_empty_set_refuted`)
* **C142** Models accepted by the ML export are exported, with the sides found from their geometry. Finding: is_saveable only looks at the number of vertices of the polygons. It accepts BReps whose export throws (the outside is in several parts, no volume) or is undefined behaviour (a block without boundary, a surface without triangle) (C142_accepted_not_exported_refuted). clone_with_model_boundaries, called when the model has no model boundary, is OpenGeode's: the model is the one it returns. (`C142_accepted_not_exported_refuted`)
* **C143** Structural models accepted by the LSO export are exported, with the sides found from their geometry. Finding: a model without model boundary is accepted by is_saveable but always refused by the export (C143_without_boundary), after the file has been opened; the .ml export builds the missing model boundaries itself. The checks of the mesh types are not represented. 
* **C144** Saving again a curve loaded from a .pl file gives the same file. Any curve whose loops come back (C107's condition), any order of edges around the vertices at the second save, attributes shown the same way; second theorem: open curves and tidy loops without exported attribute, byte for byte. Finding (C144_pl_again_loop_refuted): a loop closed on the wrong vertex line (C13, C107) gives another file the second time. Attributes are not loaded (C14), so they are only in the second file if the user adds them again. (`C144_pl_again_loop_refuted`)
* **C145** A solid loaded from a .lso file can be saved again to .lso. Finding: lso_input.cpp creates horizons only, so every model loaded from a .lso file is refused by the .lso export (no model boundary), although is_saveable accepts it. Once model boundaries are added and the sides are found, a saved and loaded model whose block vertices all belong to tetrahedra is saved again and the second file gives the same unique vertices, blocks and surfaces. (`C145_saved_again_refuted`)
* **C146** A structural model loaded from a .ml file can be saved again to .ml. Any loaded model: exported exactly when the sides are found and every surface has a triangle (C146_loaded_saved). Second round trip when all surfaces are in a model boundary, a fault or a horizon (C146_saved_again); C147_second_file shows that this condition is exact. Finding: with a surface in no collection the second file cannot be loaded (std::out_of_range), C146_saved_again_refuted. The loaded model is taken to have a model boundary (build_model_boundaries of OpenGeode is not modelled); that the sides are found again is a hypothesis, as for the first export. (`C146_saved_again_refuted`)
* **C147** What an exported .ml file needs to be loaded again. Necessary conditions for any model (C147_loaded_again_needs, C147_as_many_surfaces); exact condition for the second file of a model (C147_second_file, with C146_saved_again). Covers the refuted cases of C41 (equal names, empty collections) and C146 as instances. The loaded model is the ml_seen of C146. 
* **C148** Which corner-point grids are loaded when sections are in included files. Proved for all texts with dimensions of at least 1 and below the 32-bit limit. Refuted for the names: the keyword must come after an underscore; INCLUDE of a file called 'COORD.INC' registers the keyword with its quote, so the file is never read and the grid is refused (C148_any_name_refuted). (`C148_any_name_refuted`)
* **C149** What an .lso file keeps of the names of the blocks. Proved for all models that can be saved whose block names have at least one word (names without a word: C46_empty_name_refuted). Finding: the rest of each name is lost, and two blocks whose names begin with the same word each get the tetrahedra of both. (`C149_rest_of_names_lost`)
* **C15** Malformed GOCAD text leads to an exception, never to undefined behaviour. False: a blank data line makes front() read an empty vector, a property line shorter than the list of names is read out of bounds, a triangle corner without vertex is passed to the builder (findings). Proved: always terminates; no undefined behaviour when loading whole files (point sets, surfaces, curves) whose lines are well shaped, whose property sections hold as many values as names with sizes below 256, and whose triangles and segments use vertices of their own object. (`C15_no_undefined_behaviour_refuted`, `C15_short_properties_refuted`, `C15_missing_vertex_refuted`)
* **C150** How the numbers of a GRDECL file may be laid out. The depths: any arrangement (C150_depths_on_any_lines, also for files that fail); a word that is not a number is refused with an exception, wherever it is, as is a line of the pillars that is neither a pillar nor half of one; for the decimal reader of the model, repeat counts, slashes and comments are not numbers (C150_eclipse_words). Refuted for the pillars: their coordinates cannot be spread freely (C150_pillars_on_any_lines_refuted); when a line has three numbers, what follows the third word of the next line is lost without notice (this is also where a comment or a slash is accepted), and the pillars not read are at the origin. (`C150_pillars_on_any_lines_refuted`)
* **C151** The spacing inside the lines of a file does not matter. Proved for every text and every reader (surfaces, points, curves, wells, structural models, solids, Voxets with their data file, corner-point grids with the included files): lines with the same words and the same first word at the beginning, whatever the blanks between and after them, and rows of numbers (first word beginning with a digit, a sign or a point) with any indentation; lines that begin with GOCAD or # , the line ASCII_DATA_FILE of a Voxet and the lines that name the included files of a grid must be equal. C151_more_blanks, C151_indented_rows: any such spacing is covered. Refuted: two blanks in the first line give an empty surface without notice, an indented coordinate system line gives depths of the wrong sign without notice, two blanks before the name of the data file make a Voxet refused. Not covered: indenting a line that begins with a keyword (refuted in general). (`C151_first_line_refuted`, `C151_indented_refuted`, `C151_data_file_refuted`)
* **C152** The rows of a Voxet data file may come in any order. C152_rows_in_any_order: every text that is loaded; C152_same_outcome: also when a row is refused, for the files of C109. Rows about cells of the grid (a row outside the grid: C23), fewer than 2^32 cells. Refuted without the condition: with two rows for a cell, the last one counts. (`C152_two_rows_for_a_cell_refuted`)
* **C153** Other sections in a GRDECL file change nothing. For grids of at least one cell, with fewer than 2^32 depths. The other lines do not begin with SPECGRID, COORD, ZCORN or INCLUDE; a line that only begins like a keyword (COORDSYS) is taken for it (finding of C65). C153_before_the_dimensions holds for every text, loaded or not. 
* **C154** A Voxet that is moved keeps its cells. Proved for every outcome when the origin and the three axis points are moved together. Refuted when only the origin is changed: the reader measures the distance from the origin to the axis taken as a point, where a GOCAD file gives a vector. With the origin 1000 further, cells of 2 x 3 x 5 are loaded as 498 x 333 x 1000, without notice; with the origin at the end of an axis, the cells have no length. (`C154_origin_refuted`)
* **C155** The lines of a Voxet file that count. Proved: only the name, the origin, the three axes, the numbers of cells and the data file count. Refuted: the direction of the depths (ZPOSITIVE Depth gives the same grid as Elevation) and the range of the axes (AXIS_MIN, AXIS_MAX) are not taken into account, without notice; AXIS_NAME before AXIS_N is taken for the numbers of cells and the file is refused. (`C155_depth_refuted`, `C155_range_refuted`, `C155_names_first_refuted`)
* **C156** All the stations of a .wl file are loaded. Proved when the first station is the reference point and the PATH lines follow each other. Refuted: a first station elsewhere is lost, without notice; with a comment, a blank line or an indented line between two stations, all the stations that follow are lost, without notice. The move supposes that the addition of coordinates is associative (true of reals, true of doubles up to rounding). (`C156_first_station_refuted`, `C156_interrupted_refuted`)
* **C157** The header of a GOCAD object only gives its name. Proved for every reader and every outcome, when the header ends with a line that begins with the closing brace, for the first object of the file. Refuted for the layout: a header on one line (HEADER {name:s}) or with an indented closing brace goes on to the next closing brace, usually the one of a property class; the name and the coordinate system are lost and depths are loaded as elevations, without notice. Refuted for the entries: a key that ends with name: replaces the name. (`C157_one_line_refuted`, `C157_indented_brace_refuted`, `C157_other_key_refuted`)
* **C158** The coordinate system of a GOCAD object only gives the direction of z. Finding: the units are read and not used: a file in feet is loaded with the same numbers as in metres, and saved with metres (C158_units_refuted). Structural models and Voxets are not in the statement: Voxets ignore the direction of z as well (C155). (`C158_units_refuted`)
* **C159** What counts in the properties section of a GOCAD object. First sentence proved for every text, for the first object of a file. Refuted: a value outside the legal range or equal to the value for no data is loaded as any other value (C159_values_refuted); the lines of the section must come in one order, UNITS before ESIZES is refused with an exception (C159_order_refuted). (`C159_values_refuted`, `C159_order_refuted`)
* **C160** Words at the end of the data lines change nothing. Proved for surfaces, point sets and curves, for the first object of a file. Refuted for wells: a station with one more word is refused with an exception (C160_wells_refuted). It only holds for files that are loaded: the added words may be the ones that were missing (C160_refused_refuted). (`C160_refused_refuted`, `C160_wells_refuted`)
* **C161** Lines that are neither vertices nor cells change nothing. Proved for the first object of a file, for every outcome, when the numbers of the border lines are numbers. Refuted: a border or border stone cut short, although not used by the .ts reader, or a blank line, makes the loading undefined behaviour (C161_border_refuted). ATOM lines are vertices of surfaces; in point sets and curves they are among the lines that are ignored (C103, C104). (`C161_border_refuted`)
* **C162** The order of the triangles of a surface and of the segments of a curve does not matter. Any permutation of consecutive triangle (segment) lines of the first surface (curve) of the file. Finding: the order of the vertex lines counts although they carry numbers (only the first number is used). (`C162_vertex_order_refuted`)
* **C163** The region indicators of a solid change nothing. For every outcome. Finding: a second section on the vertices is read as a tetrahedron, beyond the words of the line. (`C163_twice_refuted`)
* **C164** What counts in the surfaces and regions of a solid. For every outcome; the line MODEL comes just after the tetrahedra or their indicators. Finding: a region that names a surface that does not exist is loaded without a message. (`C164_unknown_side_refuted`)
* **C18** Properties declared in the file header are loaded. False when a line stands between the coordinate system and PROPERTIES (finding). Proved when PROPERTIES directly follows. (`C18_declared_properties_refuted`)
* **C20** Well .dat/.txt trajectory. Every non-empty file is proved; zero rows refuted: the unsigned n-1 wraps and edges between missing vertices are created. (`C20_wrong_row_throws`, `C20_no_row_refuted`)
* **C21** Well .dev columns reach the right attribute. Every arrangement of distinct columns and at least one row is proved; zero rows and repeated headers refuted. (`C21_no_row_refuted`, `C21_same_header_refuted`)
* **C23** A Voxet data row outside the grid is rejected. Refuted: no row outside the grid is rejected, it changes another cell or writes out of bounds (proved for every grid and every such row). (`C23_vo_outside_refuted`)
* **C25** GRDECL loading terminates within the arrays on every file. False of the code: witnesses, and every file with an unclosed ZCORN section hangs (`C25_grdecl_ends_refuted`, `C25_unclosed_section_hangs`)
* **C28** DEM polygons are simple quadrilaterals. False of the code: every polygon is listed in a crossing order; both the witness and the general statement are proved (`C28_dem_simple_quads_refuted`)
* **C31** FEM property distribution lists every element under its value exactly once. Groups are distinct as values; C31_printed_values_refuted: as printed (std::to_string, six decimals) two distinct values can be the same text. Values are assumed free of NaN (femval_ok). (`C31_printed_values_refuted`)
* **C32** FEM nodal property section covers every node. Refuted: the section lists one node per polyhedron. The partial theorem says exactly what is written, and the undefined behaviour when there are more polyhedra than vertices. (`C32_nodal_section_refuted`)
* **C33** FEM declared number of element properties equals the number written. Refuted; the partial theorem characterises when the announced count is right. (`C33_element_count_refuted`)
* **C34** FEM material lists put each entry on its own line. Refuted; the partial theorem characterises when the lines are separated. (`C34_material_lines_refuted`)
* **C36** ML id lists survive line wrapping. Lists of any length and signs with |id| < 2^31 (2^32 for units). Finding: an id of 2^31 or more is written but cannot be read. (`C36_large_id_refuted`)
* **C37** ML block topology round trip. Round trip of whole files for exportable models (MlRound.v, record exportable). C37_topology_exact: the reader's rule for every list of surface numbers. Findings: a block enclosed by a single surface makes loading undefined; a surface listed three times is related as boundary or not depending on its number. (`C37_single_surface_refuted`)
* **C39** ML stratigraphic units and fault blocks keep their blocks. Finding: a block named Universe is lost and the units get the following blocks. (`C39_universe_block_refuted`)
* **C40** ML fault and horizon types round trip. The full statement is false: strike-slip, listric and decollement faults come back untyped; erosion and baselap horizons cannot be saved. True for the other types. (`C40_fault_type_refuted`, `C40_contact_type_refuted`)
* **C41** ML surface membership round trip. True when every surface is in at most one collection and names are distinct; refuted for shared surfaces, equal names and empty collections. (`C41_shared_surface_refuted`, `C41_equal_names_refuted`, `C41_empty_collection_refuted`)
* **C42** Side determination finds the consistent orientation. for every non-empty surface list and every table; an empty list is undefined behaviour (finding) (`C42_disconnected_throws`, `C42_no_surface_refuted`)
* **C44** Line-surface relations of a loaded ML model. C44_relations_exact: the relations of the border pieces, for every list of lines (a line met k times is made internal k/2 times, and a boundary when k is odd and a larger line is met, or k = 1 and another line is met). So the property holds with at least two pieces and each line met at most twice. False for a surface with a single closed border line (no relation, then made internal to the surface), for the lines of a hole (made internal), and a third meeting of the line of largest number is lost. (`C44_single_line_refuted`, `C44_single_line_internal_refuted`, `C44_hole_internal_refuted`)
* **C46** LSO blocks keep their tetrahedra. True for names with distinct first words (C149_distinct_first_words). Finding: names with the same first word (or equal names) merge the tetrahedra (exactly: C149_blocks_with_the_same_first_word), an empty name loses them. (`C46_names_with_spaces_refuted`, `C46_equal_names_refuted`, `C46_empty_name_refuted`)
* **C47** LSO tetrahedron properties land on their tetrahedron. Refuted: tetrahedron i gets the values of the TETRA line whose number is that of the vertex line of vertex i of the block; blocks with less tetrahedra than vertices are undefined behaviour. C47_actual_values says which values are loaded, for every file. (`C47_tetrahedron_values_refuted`, `C47_single_tetrahedron_refuted`)
* **C48** LSO surface-block relations. Finding: the converse fails (integer division of counts); files where a copied vertex precedes another vertex, or a triangle uses a copied vertex, are read outside the table of unique vertices. (`C48_only_if_refuted`, `C48_copied_vertex_refuted`)
* **C50** GEOS region numbers. BRep part proved. Structural model part true when each block is in exactly one unit. Refuted: a block in no unit dereferences the end iterator; a block in two units takes the first one only. (`C50_block_without_unit_refuted`, `C50_two_units_refuted`)
* **C51** GEOS exported fields. Exactly the properties defined on every block are listed, grouped by number of components. Refuted: the order of the requests is not kept, and a property requested twice is listed twice. (`C51_order_refuted`, `C51_listed_twice_refuted`)
* **C52** Shapefile lines. Finding: a polyline of a single point (GDAL says it is closed) makes the reader create an edge between missing vertices. (`C52_one_point_refuted`)
* **C53** Fracture apertures of every surface reach the FEM export. Refuted: the aperture (conduit area) of all surfaces (lines) is lost when the first one does not define it, hence no 2D feature is written. Proved otherwise, and always for the conductivity. (`C53_main_lost_refuted`, `C53_features_lost_refuted`)
* **C55** Coordinates printed with six digits. Numbers are rationals, the reader's final rounding to a double is any function with relative error 2^-53. Finding: seven-digit coordinates (UTM northings in metres) are not recovered. (`C55_exact_refuted`)
* **C59** FEM element sets list every polyhedron under its block. The property is false: undefined behaviour for every solid with block names and at least one polyhedron. (`C59_element_sets_refuted`)
* **C65** GRDECL sections can be in included files. Both sections included: proved; mixed order and keyword prefix: refuted by witnesses (`C65_mixed_sections_refuted`, `C65_keyword_prefix_refuted`)
* **C66** Well .dev files announced loadable can be read, with their whole name. Refuted; the converse direction (not loadable implies rejected) is proved. (`C66_dev_not_loadable_throws`, `C66_dev_loadable_refuted`, `C66_dev_name_refuted`, `C66_dev_malformed_refuted`)
* **C67** Voxet geometry. Origin, numbers and lengths proved; the directions of the axes are lost (refuted). (`C67_vo_directions_refuted`)
* **C68** Voxet: announced files. Loadable proved; the announced data file is not the one that is read (refuted). (`C68_vo_data_file_refuted`)
* **C70** ML names round trip. Names without spaces (any clean name for faults, horizons, units) are kept; spaces become underscores for boundaries and blocks. (`C70_spaces_refuted`)
* **C71** ML surfaces in no collection. False: such a surface comes back on two boundaries. (`C71_free_surface_refuted`)
* **C72** ML border lines are all exported. False for a surface with a hole. C72_written_stones: the exact rule from the triangles and adjacencies, for any number of borders (only the corners of the border connected to the first border edge are written; all of them once when the border does not touch itself). True for surfaces with at most one border. (`C72_hole_refuted`)
* **C73** Loading a truncated ML file ends. False: a file cut inside a list of numbers makes loading loop for ever. (`C73_cut_list_hangs`, `C73_truncated_file_refuted`)
* **C74** Blank lines in an ML file are harmless. False: string_split of a blank line is empty and front() is undefined. (`C74_blank_line_refuted`)
* **C76** Lines shared by surfaces are recognised. for a nearness that is an equivalence (e.g. equality); refuted without transitivity (`C76_not_transitive_refuted`)
* **C78** Unique vertices of the lines of a loaded ML model. lines: proved; surfaces: proved for at least two border pieces, the line of largest number not being met three, five, ... times (its last meeting is lost, C44_relations_exact); nothing is registered for a single piece (C44_single_line_refuted) 
* **C81** Reading an .lso file terminates. Refuted for files whose last line is incomplete: the reader loops for ever. True for every file of complete lines. (`C81_cut_file_refuted`)
* **C82** LSO faults and model boundaries keep their kind. Refuted: every fault or model boundary with a surface of its own is loaded as a horizon. 
* **C84** SKUA column files recognised. Refuted: exactly one space of indentation is required; recognised iff some line starts with the element preceded by one space. (`C84_any_indentation_refuted`)
* **C85** GEOS cell values. Finding: a property accepted although not of the requested type, or named attribute, makes prepare_export throw. (`C85_type_refuted`, `C85_reserved_name_refuted`)
* **C86** GEOS well boxes. True for perforations in the bounding box of some cell. Refuted: other perforations are ignored, and a well with only such perforations gets a box whose minimum is above its maximum. Exact order on coordinates assumed (no NaN). (`C86_outside_refuted`)
* **C87** Shapefile points. Refuted: all the points of a layer go to one corner; true for a layer of one point. (`C87_several_points_refuted`)
* **C88** Shapefile polygons. True for polygons without holes of fewer than 255 vertices. Refuted with holes: every ring becomes a polygon. Triangulation of larger rings is OpenGeode's. (`C88_holes_refuted`)
* **C89** Block attributes reach the cells of the FEM export. Refuted for blocks without the attribute: their cells get the first value of another block. The values of the blocks that define it are proved to arrive. (`C89_other_block_refuted`)
* **C90** Block names of cells and vertices of the FEM export. Finding: a block is listed once per vertex of its mesh at that place, so twice where the mesh is cut; unnamed blocks use their uuid on vertices and No_name on cells. (`C90_once_refuted`)
* **C91** Cell properties of a FEM file are printed with six decimals. Refuted for small values: everything below 5e-7 (permeabilities in square metres) is written as 0.000000. The absolute bound is proved. (`C91_small_values_refuted`)
* **C92** LSO corners are where the surfaces change along a border. C92_corners gives the exact rule for any surfaces; C92_uncut the property for surfaces with one vertex per unique vertex. Refuted for a surface cut at a vertex: the comparison of the two lists of surfaces only checks one inclusion, the missing corner depends on the direction of the edge (C92_cut_surface_refuted). (`C92_cut_surface_refuted`)
* **C93** LSO lines partition the borders of the surfaces. C93_lines and C93_total without condition; C93_partition for loops with a corner, borders that branch at corners only and do not turn back elsewhere. C93_from_triangles: surfaces whose triangles share no directed edge are as these theorems suppose. Refuted in full: a border loop without corner has no line (C93_free_border_refuted); at the tip of a cut the line goes forth and back (C93_tip_refuted); borders that diverge at a vertex that is not a corner give overlapping lines (C93_shared_edge_refuted). (`C93_free_border_refuted`, `C93_tip_refuted`, `C93_shared_edge_refuted`)
* **C94** LSO line-surface relations follow the borders. Under the conditions of C93_partition. Finding: the end of a cut, with the surface on both sides, is recorded as a boundary (C94_tip_refuted). (`C94_tip_refuted`)
* **C96** Stratigraphic coordinates of a loaded LSO file. The coordinates and the refusal hold for every file made of complete lines whose property headers agree (good_header). is_loadable: a file with one PROPERTIES line that loads with a block is announced loadable. Finding: the converse is false, the names are searched as substrings of the line and the numbers of values are not looked at, so a file announced loadable can be refused (C96_loadable_refuted). Scope: find_attribute of OpenGeode is taken to throw on another type; the corners and lines built after the blocks are modelled apart (C92-C95). (`C96_loadable_refuted`)
* **C97** Elevations of a surface loaded from a GeoTIFF image. Refuted: the surface has (width + 1)(height + 1) vertices and the buffer of elevations only width x height written values. Reading any image reads values that nobody wrote (C97_undefined); whatever they are, the vertex at corner i j gets the elevation of the pixel in column (i + j) mod width of row j + (i + j) / width (C97_elevations), right on the first row only (C97_first_row), wrong from the second row on (C97_misplaced_refuted). Scope: GDAL and the OpenGeode conversions are given by what they do; that a pixel is a cell of the grid is confirmed by the counts of tests/mesh/test-polytiff.cpp and the size of cea.tiff. (`C97_misplaced_refuted`)
* **C98** Loading GeoTIFF files leaves the verbosity of the logger unchanged. Refuted: an image that can be opened but not loaded leaves the logger at the critical level for the rest of the program (no restoration on exception). C98_level gives the exact rule for every sequence of loadings. (`C98_silenced_refuted`)

* The FEM export of a BRep creates the directories of the constant path "filename" instead of those of the file to be written
  (MI/brep_fem_output.cpp 84-89); not part of a theorem.

## 7. Mutation testing

`seeded/LOG.jsonl` has one line per wrong program tried: the definition edited, the edit, the claim it breaks, the lemmas or
theorems whose proof failed, and the theorems tightened when none did.

How to read a line: the whole development is rebuilt with the edit and the first proof that breaks in each file is named.
"Depends on a failed lemma" marks a file that could not be built because a lemma it uses broke. A failure therefore shows that
the proof no longer goes through, which is weaker than showing that the theorem became false; the claim field says which English
claim the edit makes false.
