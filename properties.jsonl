{"id": "C01", "title": "Quoted property names survive write then read", "statement": "For every list of clean names (non-empty words without quote characters, separated by single spaces), the PROPERTIES line written by the GOCAD writers is split back by the GOCAD readers into exactly the same list of names, in the same order; multi-word names come back whole and never swallow their neighbours.", "quantifier": "every list (any length) of clean names, any mix of one-word and multi-word names", "why_tests_cant": "A test fixes a handful of names; the claim is about every sequence of quoted and unquoted names, where an off-by-one in the quote scanner shows only for particular neighbours.", "anchors": ["src/geode/geosciences_io/mesh/gocad_common.cpp: split_string_considering_quotes, get_string_between_quote, write_string_with_quotes, write_prop_header, read_prop_header"]}
{"id": "C02", "title": "A missing closing quote is reported as an error", "statement": "Reading a line that opens a quoted string and never closes it ends with the documented 'missing a closing quote character' exception; it never reads outside the token list.", "quantifier": "every line containing an opening quote token with no later token ending in a quote", "why_tests_cant": "Out-of-bounds reads are undefined behaviour: a test may pass by luck, and only a model with explicit bounds can separate 'throws' from 'reads past the end'.", "anchors": ["src/geode/geosciences_io/mesh/gocad_common.cpp: get_string_between_quote"]}
{"id": "C03", "title": "LF and CRLF versions of a GOCAD file load identically", "statement": "For every text file, loading the same file with every line terminated by CR LF instead of LF gives the same outcome (same mesh, same exception, same failure) for TSurf, VSet and PLine inputs.", "quantifier": "every file content whatsoever (valid or malformed), all three readers", "why_tests_cant": "Requires agreement on all files, including malformed ones; tests only hold a few files of one convention.", "anchors": ["src/geode/geosciences_io/mesh/gocad_common.cpp: read_tsurf, read_vs_points, read_ecurve", "src/geode/geosciences_io/mesh/ts_input.cpp", "src/geode/geosciences_io/mesh/vs_input.cpp", "src/geode/geosciences_io/mesh/pl_input.cpp"]}
{"id": "C04", "title": "TSurf save then load preserves geometry and connectivity", "statement": "Saving any triangulated surface to .ts and loading the file gives a surface with the same number of vertices in the same order, every coordinate equal to the re-reading of its printed text, and exactly the same triangles in the same order with the same corner order; loading neither throws nor runs into undefined behaviour.", "quantifier": "every triangulated surface: any number of vertices and triangles (below 2^32), any coordinates, any genericable/non-genericable attributes, any clean name or none", "why_tests_cant": "Round-trip over unbounded mesh sizes and arbitrary attribute sets cannot be enumerated; the upstream test compares only two counts and a name.", "anchors": ["src/geode/geosciences_io/mesh/ts_output.cpp: write_file, write_prop_header, write_tface", "src/geode/geosciences_io/mesh/ts_input.cpp: read_file, build_surface", "src/geode/geosciences_io/mesh/gocad_common.cpp: read_tsurf, read_tfaces"]}
{"id": "C05", "title": "TSurf save then load preserves vertex attributes and name", "statement": "After a .ts round trip the surface has exactly the attributes that were convertible to a number and not the internal 'points' attribute, with the same names, and for every vertex the value is the re-reading of the printed value; the surface name is preserved.", "quantifier": "every surface and every list of distinct clean attribute names and values", "why_tests_cant": "Attribute order, multi-word names and per-vertex alignment must hold for any number of attributes and vertices; upstream tests never look at values.", "anchors": ["src/geode/geosciences_io/mesh/ts_output.cpp: write_prop_header, write_tface", "src/geode/geosciences_io/mesh/gocad_common.cpp: write_prop_header, read_prop_header, read_properties, create_attributes"]}
{"id": "C06", "title": "Vertex references do not depend on the numbering base of the file", "statement": "If two TSurf (or PLine) files differ only by a constant shift of all vertex numbers (first vertex numbered k instead of 0), both load to the same mesh.", "quantifier": "every base k, every number of vertices/triangles with all numbers below 2^32", "why_tests_cant": "Ranges over every base, including values near the 32-bit limit where the subtraction could wrap.", "anchors": ["src/geode/geosciences_io/mesh/gocad_common.cpp: read_tfaces, read_ilines (OFFSET_START)"]}
{"id": "C07", "title": "ZPOSITIVE Depth negates exactly the z coordinate", "statement": "Loading a TSurf/VSet/PLine whose coordinate system says 'ZPOSITIVE Depth' gives the same mesh as the same file with 'ZPOSITIVE Elevation', except that every z is multiplied by -1; x, y, connectivity, attributes and name are identical; with no coordinate system section z is kept.", "quantifier": "every point list, connectivity and attribute content", "why_tests_cant": "A relational property between the outcomes of two files, over all contents.", "anchors": ["src/geode/geosciences_io/mesh/gocad_common.cpp: read_CRS, read_tfaces, read_VSet_vertices, read_ilines"]}
{"id": "C08", "title": "A file with several TSurf loads as their disjoint union", "statement": "Loading a file that contains several TSurf objects (a property that several of them declare having the same number of values in each) yields the points of each object concatenated in file order, and the triangles of each object refer to the points of that same object.", "quantifier": "every finite sequence of TSurf objects of any size", "why_tests_cant": "Index shifting must be right for every prefix of previously loaded objects; the upstream test only counts vertices for two copies of one surface.", "anchors": ["src/geode/geosciences_io/mesh/ts_input.cpp: read_file, build_surface"]}
{"id": "C09", "title": "In a multi-object file each attribute value lands on its own object's vertex", "statement": "After loading a file with several TSurf (or VSet) objects carrying a property, each vertex carries the property value written on its own line.", "quantifier": "every finite sequence of TSurf/VSet objects with properties", "why_tests_cant": "Needs a statement about every vertex of every object; upstream tests never look at attribute values after the first object.", "anchors": ["src/geode/geosciences_io/mesh/ts_input.cpp: build_surface", "src/geode/geosciences_io/mesh/vs_input.cpp: build_point_set", "src/geode/geosciences_io/mesh/gocad_common.cpp: create_attributes"]}
{"id": "C10", "title": "VSet save then load preserves points, attributes and name", "statement": "Saving any point set to .vs and loading the file gives the same points in order (up to number printing), the same convertible attributes with the same values, and the same name, without error.", "quantifier": "every point set of any size, including the empty one, and every list of clean attribute names", "why_tests_cant": "Unbounded sizes including the empty point set; upstream tests use one fixed file.", "anchors": ["src/geode/geosciences_io/mesh/vs_output.cpp: write_file, write_prop_header, write_vset", "src/geode/geosciences_io/mesh/vs_input.cpp", "src/geode/geosciences_io/mesh/gocad_common.cpp: read_vs_points, read_VSet_vertices"]}
{"id": "C11", "title": "PLine output writes every edge exactly once and terminates", "statement": "Saving an edged curve to .pl always terminates, and the number of SEG lines equals the number of edges: no edge is dropped and none is written twice.", "quantifier": "every edged curve: any graph (branching, disconnected, multi-edges between two vertices, closed loops)", "why_tests_cant": "The line-following loop marks edges while walking; termination and exactly-once coverage are invariants over arbitrary graphs.", "anchors": ["src/geode/geosciences_io/mesh/pl_output.cpp: get_edged_vertex_on_iline, write_ilines, starting_edge, write_edge_and_vertex"]}
{"id": "C12", "title": "PLine save then load preserves the set of segments of open curves", "statement": "For every edged curve without closed loops, saving to .pl and loading gives exactly the original segments: the multiset of (unordered) pairs of end points is the same, up to number printing.", "quantifier": "every edged curve all of whose connected parts contain a vertex of degree different from 2", "why_tests_cant": "Requires the correspondence between the walked chains and the re-read edges for every graph shape.", "anchors": ["src/geode/geosciences_io/mesh/pl_output.cpp: write_ilines, write_edge_and_vertex, get_edged_vertex_on_iline", "src/geode/geosciences_io/mesh/gocad_common.cpp: read_ilines", "src/geode/geosciences_io/mesh/pl_input.cpp: build_curve"]}
{"id": "C13", "title": "PLine save then load preserves closed loops", "statement": "For every edged curve, the segments that close a loop in the .pl file join the last vertex of that loop to its own first vertex, so loops are loaded as loops.", "quantifier": "every edged curve containing closed loops", "why_tests_cant": "The closing segment mixes mesh vertex numbers and file numbering; it is right only for particular numberings, which one sample file cannot show.", "anchors": ["src/geode/geosciences_io/mesh/pl_output.cpp: write_ilines"]}
{"id": "C14", "title": "PLine save then load preserves vertices, name and attributes", "statement": "Every vertex of the saved curve (also a vertex with no edge) is present after reloading, and the name of the curve and its vertex attributes are preserved.", "quantifier": "every edged curve", "why_tests_cant": "Universally quantified over curves, including ones with isolated vertices.", "anchors": ["src/geode/geosciences_io/mesh/pl_output.cpp: write_ilines, write_file", "src/geode/geosciences_io/mesh/gocad_common.cpp: read_ecurve"]}
{"id": "C15", "title": "Malformed GOCAD text leads to an exception, never to undefined behaviour", "statement": "For every byte sequence, loading it as TSurf, VSet or PLine either succeeds or throws; a blank or truncated line never makes the reader access memory out of bounds.", "quantifier": "every byte sequence", "why_tests_cant": "All inputs; undefined behaviour is not observable by tests.", "anchors": ["src/geode/geosciences_io/mesh/gocad_common.cpp: read_tfaces, read_ilines, read_VSet_vertices, read_CRS, read_property_keyword_with_one_string"]}
{"id": "C16", "title": "Vertex-to-TFace lookup returns the owning TFace", "statement": "For a loaded TSurf with several TFACE sections, looking up a vertex returns the section in which that vertex was declared.", "quantifier": "every non-decreasing list of section offsets and every vertex number below the total", "why_tests_cant": "Empty sections and boundaries between sections must all be right.", "anchors": ["include/geode/geosciences_io/mesh/internal/gocad_common.hpp: TSurfData::tface_id"]}
{"id": "C17", "title": "Property rows are read completely or rejected", "statement": "For a header declaring properties with sizes e1..en, a vertex line is accepted iff it has at least e1+...+en numeric tokens after the coordinates, and then property j receives exactly its ej consecutive values, appended in vertex order.", "quantifier": "every list of sizes, every token list, every prior content", "why_tests_cant": "Arbitrary numbers of properties and item counts.", "anchors": ["src/geode/geosciences_io/mesh/gocad_common.cpp: read_properties, create_attributes, add_vertices_container_attribute"]}
{"id": "C18", "title": "Properties declared in the file header are loaded", "statement": "If a VSet/TSurf header declares PROPERTIES, the loaded mesh has these attributes.", "quantifier": "every file with a PROPERTIES declaration between its coordinate system and its data", "why_tests_cant": "Depends on every line allowed between the two sections.", "anchors": ["src/geode/geosciences_io/mesh/gocad_common.cpp: read_prop_header", "tests/data/points.vs"]}
{"id": "C19", "title": "Well (.wl) trajectory", "statement": "Loading a .wl file gives a polyline: the WREF point followed by one point for each PATH line after the first, at (WREF.x + dx, WREF.y + dy, +-z), each joined to its predecessor; the first PATH line and everything after the first non-PATH line are ignored.", "quantifier": "every well name, reference point, sign convention and number of PATH lines", "why_tests_cant": "Any number of stations and any trailing content.", "anchors": ["src/geode/geosciences_io/mesh/wl_input.cpp: read_file, read_ref, read_coord, read_paths"]}
{"id": "C20", "title": "Well .dat/.txt trajectory", "statement": "Loading a .dat/.txt well with n rows of three numbers gives n vertices in row order and the n-1 edges joining consecutive rows; a row without exactly three tokens is rejected.", "quantifier": "every number of rows, including zero", "why_tests_cant": "n ranges over all naturals including 0, where unsigned n-1 wraps around.", "anchors": ["include/geode/geosciences_io/mesh/internal/well_input.hpp: WellTxtDatInput / read_file"]}
{"id": "C21", "title": "Well .dev columns reach the right attribute", "statement": "Loading a .dev well puts the values of the columns headed X, Y, Z into the coordinates and the values of every other column into the attribute named by its header, row i on vertex i, for every order of the columns.", "quantifier": "every arrangement and number of columns and rows", "why_tests_cant": "All permutations of the columns.", "anchors": ["src/geode/geosciences_io/mesh/well_dev_input.cpp: read_header, read_data"]}
{"id": "C22", "title": "Voxet cell values", "statement": "Loading a .vo grid and its ASCII data file gives each cell (i,j,k) the values of the last data row for i j k, and 0 when there is none; no row changes any other cell.", "quantifier": "every grid size, every number of properties and rows", "why_tests_cant": "Index arithmetic over all grid sizes and all row orders.", "anchors": ["src/geode/geosciences_io/mesh/vo_input.cpp: read_data_file / read_properties"]}
{"id": "C23", "title": "A Voxet data row outside the grid is rejected", "statement": "A data row whose indices are outside the declared AXIS_N extent never changes a cell.", "quantifier": "every grid size and row", "why_tests_cant": "All index triples.", "anchors": ["src/geode/geosciences_io/mesh/vo_input.cpp"]}
{"id": "C24", "title": "GRDECL cell corners use the right pillar and depth", "statement": "In a loaded corner-point grid, corner (di,dj,dk) of cell (i,j,k) lies on pillar (i+di, j+dj) at depth ZCORN[(2i+di) + 2nx((2j+dj) + 2ny(2k+dk))], for all cells, and each ZCORN entry is used by exactly one corner; all indices are inside the arrays.", "quantifier": "every nx, ny, nz >= 1 with 8*nx*ny*nz < 2^32 and every cell", "why_tests_cant": "Three unbounded dimensions; one small sample grid cannot distinguish index formulas that agree on symmetric sizes.", "anchors": ["src/geode/geosciences_io/mesh/grdecl_input.cpp: cell_points, cell_pillars_id, create_points, create_cells"]}
{"id": "C25", "title": "GRDECL loading terminates within the arrays on every file", "statement": "For every file content, loading a .grdecl terminates: it succeeds or throws; it never loops forever and never writes outside the pillar or depth arrays.", "quantifier": "every file content", "why_tests_cant": "Non-termination and out-of-bounds writes over all inputs.", "anchors": ["src/geode/geosciences_io/mesh/grdecl_input.cpp: read_dimensions, read_pillars_from_file, read_depths_from_file"]}
{"id": "C26", "title": "GRDECL corner is on its pillar at its depth", "statement": "Each corner point is on the straight line through the two pillar end points and its z coordinate is exactly the ZCORN depth; at the end depths it is the pillar end point.", "quantifier": "every pillar with two different end depths and every depth (exact arithmetic)", "why_tests_cant": "Continuous parameters.", "anchors": ["src/geode/geosciences_io/mesh/grdecl_input.cpp: interpolate_on_pillar"]}
{"id": "C27", "title": "DEM surface: one vertex per valid pixel, one polygon per complete quad", "statement": "Loading a DEM creates exactly one vertex per pixel that has data (numbered in row-major order) and exactly one polygon per 2x2 pixel block whose four pixels have data, with those four vertices; no polygon touches a no-data pixel.", "quantifier": "every raster size and every placement of no-data pixels", "why_tests_cant": "All no-data masks of all sizes.", "anchors": ["src/geode/geosciences_io/mesh/dem_input.cpp: read_elevation / create_vertices / create_polygons"]}
{"id": "C28", "title": "DEM polygons are simple quadrilaterals", "statement": "Each polygon of a loaded DEM lists its four corners in cyclic order, so that consecutive corners are neighbouring pixels.", "quantifier": "every raster", "why_tests_cant": "Property of every polygon for every raster; upstream only counts polygons.", "anchors": ["src/geode/geosciences_io/mesh/dem_input.cpp"]}
{"id": "C29", "title": "FEM id ranges decode to exactly the given elements", "statement": "The compressed id list written for a group of elements ('a-b' ranges, split in several chunks) expands to exactly the given element numbers plus one, in the same order, nothing lost or duplicated.", "quantifier": "every list of element numbers (any length, order, repetition) and every chunk limit", "why_tests_cant": "Run boundaries and chunk boundaries interact; all lists must be covered.", "anchors": ["src/geode/geosciences_io/mesh/fem_output.cpp: format_range_chunks"]}
{"id": "C30", "title": "FEM id chunks respect the size limit and are never empty", "statement": "Every chunk produced for a non-empty list is non-empty and at most the limit long when the limit can hold one range.", "quantifier": "every list and every limit", "why_tests_cant": "All combinations of token lengths.", "anchors": ["src/geode/geosciences_io/mesh/fem_output.cpp: format_range_chunks"]}
{"id": "C31", "title": "FEM property distribution lists every element under its value exactly once", "statement": "The value/element-list section written for an element property contains each element number exactly once, under the value it has, and distinct groups have distinct values.", "quantifier": "every number of elements, every assignment of values, every iteration order of the value table", "why_tests_cant": "All assignments and all hash orders.", "anchors": ["src/geode/geosciences_io/mesh/fem_output.cpp: create_attribute_distribution, write_property"]}
{"id": "C32", "title": "FEM nodal property section covers every node", "statement": "The section written for a vertex attribute lists every node exactly once under its value.", "quantifier": "every solid and vertex attribute", "why_tests_cant": "Holds only if the loop bound is the vertex count; needs solids of all shapes.", "anchors": ["src/geode/geosciences_io/mesh/fem_output.cpp: write_ref_nodal_dist, create_attribute_distribution"]}
{"id": "C33", "title": "FEM declared number of element properties equals the number written", "statement": "The count announced in the element distribution header equals the number of property blocks that follow.", "quantifier": "every set of polyhedron attributes (convertible or not)", "why_tests_cant": "All attribute sets.", "anchors": ["src/geode/geosciences_io/mesh/fem_output.cpp: write_ref_element_dist"]}
{"id": "C34", "title": "FEM material lists put each entry on its own line", "statement": "In the material section every (value, id chunk) entry is separated from the next by an end of line.", "quantifier": "every value table and every chunking", "why_tests_cant": "All combinations of chunk counts and entry positions.", "anchors": ["src/geode/geosciences_io/mesh/fem_output.cpp: write_material_property"]}
{"id": "C35", "title": "FEM discrete features are numbered consecutively", "statement": "Discrete features written to a FEM file are numbered 1..n without gap or repetition, surfaces first then lines, and the announced count equals the number of feature lines.", "quantifier": "every set of facets/edges with apertures/areas (skipped when negative)", "why_tests_cant": "All subsets of skipped features.", "anchors": ["src/geode/geosciences_io/mesh/fem_output.cpp: discrete features (create/write groups, signatures, incidence, groups)"]}
{"id": "C36", "title": "ML id lists survive line wrapping", "statement": "A signed surface-id list written in a region (five per line, ended by 0) is read back as the same list, and reading stops exactly after its line.", "quantifier": "every list of non-zero ids of any length and signs", "why_tests_cant": "Wrapping every five items interacts with list length for all lengths.", "anchors": ["include/geode/geosciences_io/model/internal/ml_output_impl.hpp: write_regions, write_universe", "src/geode/geosciences_io/model/internal/ml_input.cpp: read_universe, create_block_topology"]}
{"id": "C37", "title": "ML block topology round trip", "statement": "After saving a model to .ml and loading it, every block has exactly the same boundary surfaces and the same internal surfaces.", "quantifier": "every block with any set of boundary surfaces and any disjoint set of internal surfaces", "why_tests_cant": "All sizes of boundary and internal sets, and all interleavings of their ids after sorting.", "anchors": ["include/geode/geosciences_io/model/internal/ml_output_impl.hpp: write_regions", "src/geode/geosciences_io/model/internal/ml_input.cpp: create_block_topology"]}
{"id": "C38", "title": "ML components are numbered consecutively and uniquely", "statement": "In a saved .ml file the component numbers are 1,2,3,... in order of appearance: each surface gets exactly one number, then the universe, then each block (layers and fault blocks carry no number); every reference in a region is to the number of that surface.", "quantifier": "every model: any collections of surfaces, surfaces in several collections, unclassified surfaces, blocks and units", "why_tests_cant": "All distributions of surfaces among collections.", "anchors": ["include/geode/geosciences_io/model/internal/ml_output_impl.hpp: write_tfaces, write_universe, write_regions", "src/geode/geosciences_io/model/internal/ml_output_structural_model.cpp"]}
{"id": "C39", "title": "ML stratigraphic units and fault blocks keep their blocks", "statement": "After saving to .ml and loading, each stratigraphic unit (layer) and fault block contains exactly the blocks it contained.", "quantifier": "every assignment of blocks to units, any number of surfaces", "why_tests_cant": "The id offset depends on the number of surfaces; all counts must work.", "anchors": ["src/geode/geosciences_io/model/internal/ml_output_structural_model.cpp: write stratigraphic units / fault blocks", "src/geode/geosciences_io/model/internal/ml_input.cpp: create_stratigraphic_unit_topology, create_fault_block_topology"]}
{"id": "C40", "title": "ML fault and horizon types round trip", "statement": "The type of every fault and horizon is preserved by saving to .ml and loading, and saving never fails because of a type.", "quantifier": "every fault type and every horizon contact type", "why_tests_cant": "Finite, but the claim concerns the composition of two independently maintained tables.", "anchors": ["src/geode/geosciences_io/model/internal/ml_output_structural_model.cpp: fault_map_, horizon_map_", "src/geode/geosciences_io/model/internal/ml_input.cpp: fault_map_, horizon_map_"]}
{"id": "C41", "title": "ML surface membership round trip", "statement": "After saving to .ml and loading, each named collection (fault, horizon, boundary) contains the same number of surfaces with the geometry of the same surfaces.", "quantifier": "every model, including surfaces in several collections and collections with equal names", "why_tests_cant": "All overlaps between collections.", "anchors": ["include/geode/geosciences_io/model/internal/ml_output_impl.hpp: write_tfaces, write_tsurfs, write_model_surfaces", "src/geode/geosciences_io/model/internal/ml_input.cpp: read_model_components, create_tsurfs, build_surfaces"]}
{"id": "C42", "title": "Side determination finds the consistent orientation", "statement": "Given the pairwise same-side information of surfaces sharing lines, if some assignment of sides satisfies all pairs and the surfaces are connected, the computed sides are that assignment or its global inverse; if they are not connected the export throws; it always terminates.", "quantifier": "every number of surfaces and every pairwise sign table", "why_tests_cant": "Breadth-first propagation over arbitrary graphs and arbitrary visiting orders.", "anchors": ["src/geode/geosciences_io/model/internal/gocad_common.cpp: determine_relative_signs, determine_paired_signs"]}
{"id": "C43", "title": "Universe and region sides are opposite", "statement": "For a surface list seen both as the boundary of the universe and of a region, the computed sides are opposite for every surface; the result does not depend on which global orientation the propagation started with.", "quantifier": "every surface list, relative signs and volume sign", "why_tests_cant": "All sizes and both signs.", "anchors": ["src/geode/geosciences_io/model/internal/gocad_common.cpp: determine_universe_sides, determine_regions_sides, are_correct_sides"]}
{"id": "C44", "title": "Line-surface relations of a loaded ML model", "statement": "When loading an .ml file each border line of a surface that is met once along its borders becomes a boundary of the surface, and a line met twice becomes internal.", "quantifier": "every multiset of lines per surface, including a surface with a single closed border line", "why_tests_cant": "All multiplicities and sizes.", "anchors": ["src/geode/geosciences_io/model/internal/ml_input.cpp: create_line_surface_relationships"]}
{"id": "C45", "title": "LSO vertex numbering resolves every tetrahedron corner to its own point", "statement": "In a saved .lso file the VRTX/SHAREDVRTX numbers are 1,2,3,... without gap, and each tetrahedron corner number refers to a line that denotes the position of that corner's unique vertex; corners of different blocks at the same unique vertex resolve to the same point.", "quantifier": "every model: any number of blocks, vertices and sharing between blocks", "why_tests_cant": "All sharing patterns between blocks.", "anchors": ["src/geode/geosciences_io/model/internal/lso_output.cpp: write_vertices, write_tetrahedron, first_block", "src/geode/geosciences_io/model/internal/lso_input.cpp: read_vertices, read_shared_point"]}
{"id": "C46", "title": "LSO blocks keep their tetrahedra", "statement": "After saving to .lso and loading, each block contains exactly its own tetrahedra.", "quantifier": "every model and every assignment of block names", "why_tests_cant": "Depends on all names, including names with spaces.", "anchors": ["src/geode/geosciences_io/model/internal/lso_output.cpp: write_tetrahedron, write_regions", "src/geode/geosciences_io/model/internal/lso_input.cpp: read_tetrahedra, read_blocks, build_block_mesh"]}
{"id": "C47", "title": "LSO tetrahedron properties land on their tetrahedron", "statement": "After loading an .lso file with properties on tetrahedra, each polyhedron of each block carries the value given on its own line.", "quantifier": "every file with tetrahedra properties", "why_tests_cant": "Needs per-cell value checks for all files; upstream only counts vertex attributes.", "anchors": ["src/geode/geosciences_io/model/internal/lso_input.cpp: build_block_mesh"]}
{"id": "C48", "title": "LSO surface-block relations", "statement": "When loading an .lso file a surface is a boundary of a block if each of its triangles is a facet of exactly one tetrahedron of the block, and internal if each is a facet of exactly two.", "quantifier": "every solid and surface", "why_tests_cant": "All incidence counts.", "anchors": ["src/geode/geosciences_io/model/internal/lso_input.cpp: find_block_relations, build_block_relations"]}
{"id": "C49", "title": "Stratigraphic column horizons and contact types", "statement": "Loading a SKUA stratigraphic column creates one unit per entry in order, exactly one horizon per distinct name, sets the horizon above/under each unit, and a horizon is conformal if never marked structural, erosion (resp. baselap) if marked structural once as top (resp. base), discontinuity if marked more than once.", "quantifier": "every list of units, any repetition of names and relations", "why_tests_cant": "All histories of top/base mentions of the same name.", "anchors": ["src/geode/geosciences_io/model/internal/horizons_stack_skua_input.cpp: read_file / load units"]}
{"id": "C50", "title": "GEOS region numbers", "statement": "Exporting a BRep numbers cell regions by block with pairwise distinct numbers 0..n-1; exporting a structural model numbers them by stratigraphic unit: two cells have the same number iff their blocks are in the same unit.", "quantifier": "every model and every assignment of blocks to units", "why_tests_cant": "All assignments, including blocks in no unit.", "anchors": ["src/geode/geosciences_io/model/helpers/brep_geos_export.cpp", "src/geode/geosciences_io/model/helpers/structural_model_geos_export.cpp", "src/geode/geosciences_io/model/internal/geos_export.cpp: initialize_solid_region_attribute"]}
{"id": "C51", "title": "GEOS exported fields", "statement": "A cell property is exported iff it exists on every block, and the fieldsToImport attribute of the XML lists exactly the accepted properties in order.", "quantifier": "every list of requested names and every model", "why_tests_cant": "All sets of names.", "anchors": ["src/geode/geosciences_io/model/internal/geos_export.cpp: add_cell_property1d/2d/3d, check_property_name, write_mesh_files"]}
{"id": "C52", "title": "Shapefile lines", "statement": "Loading an open polyline of n points gives n vertices and n-1 consecutive edges; loading a closed one (last point equals first) gives n-1 vertices and n-1 edges forming a cycle; several polylines in a layer are not connected to each other.", "quantifier": "every sequence of polylines of any length", "why_tests_cant": "All lengths and mixes of open and closed.", "anchors": ["src/geode/geosciences_io/model/internal/shp_input.cpp: read_line / read_points"]}
{"id": "C53", "title": "Fracture apertures of every surface reach the FEM export", "statement": "Exporting a BRep to FEM transfers the aperture (and conductivity) of every surface, and of every line, that defines them.", "quantifier": "every BRep and every subset of surfaces defining the attribute", "why_tests_cant": "All subsets.", "anchors": ["src/geode/geosciences_io/model/internal/brep_fem_output.cpp: paint_surface_infos, paint_line_infos"]}
{"id": "C54", "title": "A file is announced loadable iff the reader finds its object", "statement": "is_loadable answers 100% exactly when the reader finds an object to read: otherwise TSurf/VSet/PLine readers return an empty mesh and the Well reader throws.", "quantifier": "every file content", "why_tests_cant": "All files.", "anchors": ["src/geode/geosciences_io/mesh/ts_input.cpp: is_loadable", "src/geode/geosciences_io/mesh/vs_input.cpp: is_loadable", "src/geode/geosciences_io/mesh/pl_input.cpp: is_loadable", "src/geode/geosciences_io/mesh/wl_input.cpp: is_loadable, read_file"]}
{"id": "C55", "title": "Coordinates printed with six digits", "statement": "A coordinate written with the default stream format and read back differs from the original by at most 5e-6 relative error, and is recovered exactly when it is an integer below 10^6.", "quantifier": "every finite number", "why_tests_cant": "All doubles.", "anchors": ["src/geode/geosciences_io/mesh/pl_output.cpp: write_pvrtx", "src/geode/geosciences_io/mesh/fem_output.cpp"]}
{"id": "C56", "title": "FEM AREA table lists every discrete feature once under its own value", "statement": "In the AREA material of a FEM file, every discrete feature (facet or edge with a non-negative aperture or area) appears exactly once, under the text of its own value, also when facets and edges share values and their tables are merged.", "quantifier": "every solid, every set of facets and edges, every assignment of values, every iteration order of the tables", "why_tests_cant": "All assignments of values to both dimensions and all hash orders.", "anchors": ["src/geode/geosciences_io/mesh/fem_output.cpp: write_discrete_feature_properties, combine_maps, build_2d_discrete_features, build_1d_discrete_features"]}
{"id": "C57", "title": "FEM COND table lists exactly the features with a positive conductivity", "statement": "In the COND material, exactly the discrete features whose conductivity is positive appear, once each, under the text of their own conductivity; without any such feature no COND material is written.", "quantifier": "every solid, every set of facets and edges, every assignment of values, every iteration order of the tables", "why_tests_cant": "All combinations of skipped features, missing conductivities, shared values and hash orders.", "anchors": ["src/geode/geosciences_io/mesh/fem_output.cpp: write_discrete_feature_properties, combine_maps"]}
{"id": "C58", "title": "FEM nodal sets list every vertex under each of its blocks", "statement": "The nodal sets contain one group per block name; every vertex number appears exactly once under each of its blocks and under no other.", "quantifier": "every number of vertices, every assignment of block names, every iteration order of the table", "why_tests_cant": "All assignments and hash orders.", "anchors": ["src/geode/geosciences_io/mesh/fem_output.cpp: write_nodal_sets, create_region_map"]}
{"id": "C59", "title": "FEM element sets list every polyhedron under its block", "statement": "The element sets contain every polyhedron number exactly once, under the name of its block.", "quantifier": "every solid with block names on polyhedra", "why_tests_cant": "The code keeps views on destroyed strings: whether a test sees it depends on the memory allocator.", "anchors": ["src/geode/geosciences_io/mesh/fem_output.cpp: write_element_sets, create_region_map"]}
{"id": "C60", "title": "FEM mesh sections describe the solid", "statement": "The announced counts are those of the solid, the line of each tetrahedron holds its vertex numbers plus one, in order, and the line of each vertex its coordinates, in order.", "quantifier": "every tetrahedral solid", "why_tests_cant": "All solids.", "anchors": ["src/geode/geosciences_io/mesh/fem_output.cpp: write_dimension, write_var_node, write_node_coordinates"]}
{"id": "C61", "title": "FEM coordinate distributions list every vertex once under its own coordinate", "statement": "For each of X, Y and Z every vertex number appears exactly once, on the line of its own coordinate, and the values of the lines are pairwise different.", "quantifier": "every set of points, every sort and iteration order", "why_tests_cant": "All repetitions of coordinates and hash orders.", "anchors": ["src/geode/geosciences_io/mesh/fem_output.cpp: create_coord_dist, write_one_coord_component_dist"]}
{"id": "C62", "title": "FEM announced number of nodal distributions equals the number written", "statement": "The count in the nodal distribution header equals the number of distributions that follow: X, Y, Z and one per exported vertex attribute, each starting with its name.", "quantifier": "every set of vertex attributes", "why_tests_cant": "All attribute sets.", "anchors": ["src/geode/geosciences_io/mesh/fem_output.cpp: write_ref_nodal_dist"]}
{"id": "C63", "title": "FEM group section lists the features of each group", "statement": "The groups section announces the number of groups; each group carries its name, its number of features and a range list that expands to the numbers of exactly its features.", "quantifier": "every set of facets and edges", "why_tests_cant": "All numbers of features and all skipped subsets; range compression and chunking.", "anchors": ["src/geode/geosciences_io/mesh/fem_output.cpp: write_discrete_feature_groups, write_discrete_feature_group"]}
{"id": "C64", "title": "FEM incidence section gives the nodes of each feature in order", "statement": "The incidence section has one line per discrete feature, in the order of their numbers, with the number of nodes then the node numbers (vertex plus one).", "quantifier": "every set of facets and edges", "why_tests_cant": "All numbers of features and all skipped subsets.", "anchors": ["src/geode/geosciences_io/mesh/fem_output.cpp: write_discrete_feature_nodal_incidence_matrix"]}
{"id": "C65", "title": "GRDECL sections can be in included files", "statement": "A grid whose COORD and ZCORN sections are in files named by INCLUDE loads as the same grid as when the sections are in the file itself, whatever the order of the sections, and a line that only begins like a keyword (COORDSYS) is not taken for it.", "quantifier": "every grid, every included file name of the form STEM_KEYWORD.EXT, every order of the sections", "why_tests_cant": "The order of sections and the file names are free; upstream has one sample with both sections included.", "anchors": ["src/geode/geosciences_io/mesh/grdecl_input.cpp: get_filenames_and_keywords, read_file"]}
{"id": "C66", "title": "Well .dev files announced loadable can be read, with their whole name", "statement": "A .dev file announced loadable is read; the well gets the whole name that follows WELL NAME; a header without the X, Y or Z column is rejected with an exception.", "quantifier": "every file content", "why_tests_cant": "All files; indexing past the words and positions never set are undefined behaviour a run does not reveal.", "anchors": ["src/geode/geosciences_io/mesh/well_dev_input.cpp: is_loadable, read_header"]}
{"id": "C67", "title": "Voxet geometry", "statement": "The loaded grid has the declared origin, the declared number of cells along each axis and, along each axis, cells whose length is the distance from the origin to the axis point divided by the number of cells, in the declared direction.", "quantifier": "every origin, axes and numbers of cells", "why_tests_cant": "All geometries, including turned ones.", "anchors": ["src/geode/geosciences_io/mesh/vo_input.cpp: initialize_grid, read_grid_size, compute_cells_length"]}
{"id": "C68", "title": "Voxet: announced files", "statement": "is_loadable answers 100% exactly when the reader finds a Voxet, and the data file announced by additional_files is the file the reader opens, with the same answer about its presence.", "quantifier": "every file content and every set of files", "why_tests_cant": "All files and directories.", "anchors": ["src/geode/geosciences_io/mesh/vo_input.cpp: additional_files, is_loadable, read_data_file"]}
{"id": "C69", "title": "Region sides tell where the normals point", "statement": "If the boundary surfaces of a region are orientable, closed and enclose a volume, the side computed for a surface is positive exactly when the normals of its triangles point into the region (and out of it for the universe), in whatever order the surfaces are listed and whichever bounding-box centre is used.", "quantifier": "every closed orientable set of triangulated surfaces, any order of the surfaces, any stored orientation of each surface", "why_tests_cant": "the result depends on a propagation order and on an arbitrary centre point; tests only see a few orders of a few boxes", "anchors": ["src/geode/geosciences_io/model/internal/gocad_common.cpp:165-255"]}
{"id": "C70", "title": "ML names round trip", "statement": "The names of the model, its boundaries, faults, horizons, blocks, layers and fault blocks are the same after saving to .ml and loading.", "quantifier": "every named component, including names with spaces", "why_tests_cant": "names are free text; a test tries one", "anchors": ["include/geode/geosciences_io/model/internal/ml_output_impl.hpp: component_name, write_tsurfs", "src/geode/geosciences_io/model/internal/ml_input.cpp: read_name, process_TSURF_keyword"]}
{"id": "C71", "title": "ML surfaces in no collection", "statement": "A surface that belongs to no collection is saved and loaded as a surface that belongs to no collection.", "quantifier": "every model with such surfaces", "why_tests_cant": "the shipped test data have a collection for every surface of interest", "anchors": ["src/geode/geosciences_io/model/internal/ml_output_structural_model.cpp: write_unclassified_tsurfs", "src/geode/geosciences_io/model/internal/ml_input.cpp: process_unassigned_model_boundaries"]}
{"id": "C72", "title": "ML border lines are all exported", "statement": "Every corner met along a border of a surface is written as a border stone with the vertex before it.", "quantifier": "every surface, with any number of borders (holes)", "why_tests_cant": "needs surfaces with several borders, absent of the test data", "anchors": ["include/geode/geosciences_io/model/internal/ml_output_impl.hpp: add_corners_and_line_starts, process_surface_edge"]}
{"id": "C73", "title": "Loading a truncated ML file ends", "statement": "Loading a file cut anywhere in its component section ends with an error.", "quantifier": "every prefix of a file", "why_tests_cant": "a test cannot observe an infinite loop for all prefixes", "anchors": ["src/geode/geosciences_io/model/internal/ml_input.cpp: read_universe, create_block_topology"]}
{"id": "C74", "title": "Blank lines in an ML file are harmless", "statement": "A blank line between two components of an .ml file does not make reading undefined.", "quantifier": "every file and position", "why_tests_cant": "undefined behaviour may look fine in a test", "anchors": ["src/geode/geosciences_io/model/internal/ml_input.cpp: read_model_components"]}
{"id": "C75", "title": "Border lines of a loaded ML model cut the border at its corners", "statement": "When an .ml file is loaded, the lines built from the BORDER entries of a border loop that has at least one corner follow every border edge of the loop exactly once, each line starting and ending at a corner, meeting no corner in between and carrying the points of the surface vertices it follows, whichever side the BORDER entries are given from.", "quantifier": "every surface, every border loop with at least one corner, every set of corners, both directions", "why_tests_cant": "The walk is unbounded and depends on the corners.", "anchors": ["src/geode/geosciences_io/model/internal/ml_input.cpp: compute_line, find_edge"]}
{"id": "C76", "title": "Lines shared by surfaces are recognised", "statement": "When an .ml file is loaded, two border pieces (of the same or of different surfaces) become the same line if and only if they have the same corners and the same points within the tolerance, in the same or in the opposite order, and the surface vertices recorded for each are in the order of the line's points.", "quantifier": "every sequence of border pieces, when nearness within the tolerance is an equivalence on the points of the model", "why_tests_cant": "Sequences of any length; depends on the order of creation.", "anchors": ["src/geode/geosciences_io/model/internal/ml_input.cpp: find_or_create_line, are_lines_equal, are_lines_reverse_equal, create_line"]}
{"id": "C77", "title": "The last pass of an ML load only adds internal lines lying on the surface", "statement": "After the last pass of an .ml load every vertex of a surface has a unique vertex: the one it had, else the unique vertex of the line vertex located there, else a new one shared with no other vertex of the surface; existing line-surface relations are kept and each added relation makes internal a line that was not, all of whose vertices are on the surface.", "quantifier": "every surface, set of lines and unique vertices for which the load does not fail", "why_tests_cant": "All sizes and all configurations.", "anchors": ["src/geode/geosciences_io/model/internal/ml_input.cpp: create_missing_line_surface_relationships, should_line_be_internal"]}
{"id": "C78", "title": "Unique vertices of the lines of a loaded ML model", "statement": "After the lines of an .ml file are built, each line has one unique vertex per point, starting at the unique vertex of its first corner and ending at that of its second, those in between being new and shared with no other line; and every vertex of a surface along a border line carries the unique vertex of the line there, in the right order, the corners keeping theirs.", "quantifier": "every sequence of border pieces; every surface whose pieces are those of its border loops", "why_tests_cant": "Numbering over sequences of any length; depends on the direction in which shared lines were met.", "anchors": ["src/geode/geosciences_io/model/internal/ml_input.cpp: create_line_topology, register_line_surface_vertex_identifier, create_line_surface_relationships"]}
{"id": "C79", "title": "LSO vertex properties land on their vertex", "statement": "After loading an .lso file with vertex properties, each vertex of each block carries, for each property, the values given on the vertex line it comes from.", "quantifier": "every file of complete lines that is read, with any number of properties and item sizes", "why_tests_cant": "All mixes of PVRTX and SHAREDPVRTX lines, of property sizes and of vertices shared by blocks.", "anchors": ["src/geode/geosciences_io/model/internal/lso_input.cpp: read_vertices, build_block_mesh, create_attributes"]}
{"id": "C80", "title": "LSO save and load restores the surfaces around and inside blocks", "statement": "Saving a conforming model to .lso and loading it gives back, for each block, the same boundary surfaces and the same internal surfaces.", "quantifier": "every conforming model with distinct one-word block names", "why_tests_cant": "All incidences of surfaces and blocks; relations are not in the file and are recomputed from facet counts.", "anchors": ["src/geode/geosciences_io/model/internal/lso_output.cpp: write_surfaces, write_tetrahedra", "src/geode/geosciences_io/model/internal/lso_input.cpp: find_block_relations, build_block_relations"]}
{"id": "C81", "title": "Reading an .lso file terminates", "statement": "Reading any .lso file ends, with a model or an exception.", "quantifier": "every sequence of bytes", "why_tests_cant": "The files that make the reader loop for ever are truncated files no test has.", "anchors": ["src/geode/geosciences_io/model/internal/lso_input.cpp: read_surfaces, read_blocks"]}
{"id": "C82", "title": "LSO faults and model boundaries keep their kind", "statement": "A fault or model boundary of a saved model is a fault or model boundary of the loaded model.", "quantifier": "every model with faults or model boundaries", "why_tests_cant": "The test file has a fixed set of collections.", "anchors": ["src/geode/geosciences_io/model/internal/lso_output.cpp: write_surfaces", "src/geode/geosciences_io/model/internal/lso_input.cpp: read_surfaces"]}
{"id": "C83", "title": "LSO files to inspect are signalled", "statement": "Loading an .lso file asks for an inspection exactly when a triangle of a surface is a facet of no tetrahedron or the facets of a block on a surface are neither once nor twice its triangles; a conforming saved model is loaded without it.", "quantifier": "every file that is read, every conforming model", "why_tests_cant": "All non conforming patterns.", "anchors": ["src/geode/geosciences_io/model/internal/lso_input.cpp: read_triangles, build_block_relations, read_file"]}
{"id": "C84", "title": "SKUA column files recognised", "statement": "A stratigraphic column file is recognised (is_loadable) whatever the indentation of its LocalStratigraphicColumn element.", "quantifier": "every file text", "why_tests_cant": "All texts; the test files are all written by the same program.", "anchors": ["src/geode/geosciences_io/model/internal/horizons_stack_skua_input.cpp: is_loadable"]}
{"id": "C85", "title": "GEOS cell values", "statement": "Every cell property listed for import in the GEOS XML is on the exported solid, with for each cell the value of the block cell it comes from; the export fails only if a property has the wrong number of components or the reserved name of the region numbers.", "quantifier": "every model, every list of requested properties, every correspondence between cells and block cells", "why_tests_cant": "All sets of properties and all orders of cells.", "anchors": ["src/geode/geosciences_io/model/internal/geos_export.cpp: transfer_cell_properties"]}
{"id": "C86", "title": "GEOS well boxes", "statement": "The box written for a well contains all its perforations, each with a nearest cell.", "quantifier": "every mesh and every list of perforations", "why_tests_cant": "All positions of perforations relative to the cells.", "anchors": ["src/geode/geosciences_io/model/internal/geos_export.cpp: write_well_perforations_boxes"]}
{"id": "C87", "title": "Shapefile points", "statement": "Loading a shapefile layer of points gives one corner per point, each with its unique vertex.", "quantifier": "every list of points", "why_tests_cant": "All numbers of points.", "anchors": ["src/geode/geosciences_io/model/internal/shp_input.cpp: create_corner"]}
{"id": "C88", "title": "Shapefile polygons", "statement": "Loading a shapefile polygon gives a surface covering the polygon: its vertices in order, without the closing point, and without its holes.", "quantifier": "every polygon, any number of holes", "why_tests_cant": "All numbers of rings.", "anchors": ["src/geode/geosciences_io/model/internal/shp_input.cpp: read_polygon"]}
{"id": "C89", "title": "Block attributes reach the cells of the FEM export", "statement": "In the FEM export of a BRep, every cell carries, for each transferable real attribute of its block, the value of its block's polyhedron, whatever the other blocks define; a cell of a block without the attribute does not receive another block's value.", "quantifier": "every list of blocks, attributes and cell correspondences", "why_tests_cant": "All combinations of blocks with and without the attribute.", "anchors": ["src/geode/geosciences_io/model/internal/brep_fem_output.cpp: copy_tetrahedra_attributes_in_solid"]}
{"id": "C90", "title": "Block names of cells and vertices of the FEM export", "statement": "Each cell of the solid is labelled by the name of its block, and each vertex lists exactly the blocks it belongs to, each once.", "quantifier": "every list of blocks and correspondences", "why_tests_cant": "All incidence patterns.", "anchors": ["src/geode/geosciences_io/model/internal/brep_fem_output.cpp: paint_polyhedron_block_id_attributes, paint_vertices_block_id_attributes"]}
{"id": "C91", "title": "Cell properties of a FEM file are printed with six decimals", "statement": "A cell property written in a FEM file reads back within 5e-7 of the original value (absolute); a non-zero value is not written as zero.", "quantifier": "every finite number", "why_tests_cant": "All doubles; tests use values around 1.", "anchors": ["src/geode/geosciences_io/mesh/fem_output.cpp: write_property (std::to_string)"]}
{"id": "C92", "title": "LSO corners are where the surfaces change along a border", "statement": "After loading an .lso file there is exactly one corner, at a point of a surface, at each unique vertex u that a border edge joins to a vertex w when the surfaces at u are not those at w and are at least as many; there is no other corner.", "quantifier": "every set of surfaces with closed border loops, whatever their number, shape, order and shared vertices", "why_tests_cant": "Any number of surfaces can meet at a vertex; which vertices are corners depends on all of them and on the direction of each border edge.", "anchors": ["src/geode/geosciences_io/model/internal/lso_input.cpp: build_corners, build_corner_from_edge, containing_surfaces_ids, are_equal, create_corner"]}
{"id": "C93", "title": "LSO lines partition the borders of the surfaces", "statement": "After loading an .lso file each line goes from a corner to a corner without corner inside and is related to these two corners, and each border edge of each surface lies on exactly one line; building the lines ends.", "quantifier": "every set of surfaces with closed border loops", "why_tests_cant": "The walk along the borders and the search of an existing line depend on the order of the surfaces and on all the lines already built.", "anchors": ["src/geode/geosciences_io/model/internal/lso_input.cpp: build_lines, build_line, common_line"]}
{"id": "C94", "title": "LSO line-surface relations follow the borders", "statement": "A line is a boundary of a surface when the border of the surface goes along it once, internal to it when the border goes along it twice; the loading fails only if a border goes along a line more than twice.", "quantifier": "every set of surfaces with closed border loops", "why_tests_cant": "The counts are made on lines built while other surfaces are visited, in any order.", "anchors": ["src/geode/geosciences_io/model/internal/lso_input.cpp: build_lines, build_line_relations, common_line"]}
{"id": "C95", "title": "LSO lines inside an uncut surface are signalled", "statement": "When a surface has an edge on a line that its border does not follow, the line is made internal to the surface and the file is signalled as to be inspected; the flag is not set otherwise.", "quantifier": "every set of surfaces with closed border loops", "why_tests_cant": "Any surface may contain the end of any other one.", "anchors": ["src/geode/geosciences_io/model/internal/lso_input.cpp: split_on_internal_lines"]}
{"id": "C96", "title": "Stratigraphic coordinates of a loaded LSO file", "statement": "When an LSO file is loaded as a stratigraphic model, every vertex of every block gets as stratigraphic coordinates the two values of the skua_model_Geology property and the value of the skua_model_stratigraphy property written on the vertex line it comes from; a file with a block where one of the two properties is missing or has another number of values is refused with a data exception; is_loadable answers 1 exactly for the files that can be loaded this way.", "quantifier": "every .lso text, with any number of blocks, vertices and properties in any order", "why_tests_cant": "Blocks renumber their vertices and the properties may stand in any order among any number of others.", "anchors": ["src/geode/geosciences_io/model/internal/strati_lso_input.cpp: read_file", "src/geode/geosciences_io/model/internal/strati_lso_input.cpp: is_loadable"]}
{"id": "C97", "title": "Elevations of a surface loaded from a GeoTIFF image", "statement": "When a GeoTIFF image is loaded as a polygonal surface, the vertex at the first corner of each pixel with data has the elevation of that pixel, and every elevation given to a vertex is that of a pixel of the image.", "quantifier": "every image with at least one pixel and one band", "why_tests_cant": "The surface has one more vertex than pixels in each direction; a test on counts sees nothing of which pixel each vertex got.", "anchors": ["src/geode/geosciences_io/mesh/polytiff_input.cpp: read_file"]}
{"id": "C98", "title": "Loading GeoTIFF files leaves the verbosity of the logger unchanged", "statement": "The level of the logger chosen by the user is the same after loading GeoTIFF files as grids or surfaces, whether each loading succeeds or ends with an exception.", "quantifier": "every sequence of loadings with any outcome of each library call", "why_tests_cant": "The level is a hidden global state; the effect shows only after an exception and on later, unrelated messages.", "anchors": ["src/geode/geosciences_io/mesh/geotiff_input.cpp: read_file", "src/geode/geosciences_io/mesh/polytiff_input.cpp: read_file"]}
{"id": "C99", "title": "Walking along the border of a surface", "statement": "The walk along the border of a surface made when exporting an .ml file ends, whatever border edge it starts from; it meets border edges only, each once, each ending where the one met before begins, and next_on_border undoes previous_on_border. The border edges of a surface, those whose opposite is in no other triangle, are cut into loops by these walks.", "quantifier": "every triangulated surface with symmetric adjacencies, with any number of borders, including borders that touch at a vertex", "why_tests_cant": "Termination and covering over meshes of any size and topology; tests only use a few surfaces.", "anchors": ["include/geode/geosciences_io/model/internal/ml_output_impl.hpp: get_one_border_edge, add_corners_and_line_starts", "src/geode/geosciences_io/model/internal/ml_input.cpp: compute_line", "src/geode/geosciences_io/model/internal/lso_input.cpp: build_line"]}
{"id": "C100", "title": "FEM export of a solid completes", "statement": "Every well-formed tetrahedral solid (attributes with one value per element) can be exported to FEM: a file is written, unless no discrete feature can be built from an existing aperture or conduit area, which is reported by an exception.", "quantifier": "all solids", "why_tests_cant": "the outcome depends on the numbers of vertices and polyhedra, on which attributes exist and on their values", "anchors": ["src/geode/geosciences_io/mesh/fem_output.cpp:121-150", "src/geode/geosciences_io/mesh/fem_output.cpp:270-299", "src/geode/geosciences_io/mesh/fem_output.cpp:461-503", "src/geode/geosciences_io/mesh/fem_output.cpp:634-766"]}
{"id": "C101", "title": "FEM export of a BRep completes", "statement": "Every BRep whose blocks, surfaces and lines are meshed consistently can be prepared as a solid and exported to FEM.", "quantifier": "all BReps and mappings to the solid", "why_tests_cant": "undefined behaviour that often looks right with short names cannot be excluded by running the export", "anchors": ["src/geode/geosciences_io/model/internal/brep_fem_output.cpp:78-104", "src/geode/geosciences_io/model/internal/brep_fem_output.cpp:287-333", "src/geode/geosciences_io/mesh/fem_output.cpp:461-503"]}
{"id": "C102", "title": "A GOCAD surface file is loaded as it says", "statement": "Whoever wrote it, a TSurf file (header, coordinate system, properties, TFACE sections, stones, borders, unknown lines) whose vertices are numbered consecutively is loaded as one surface: its name, one vertex per VRTX, PVRTX, ATOM or PATOM line at the position given (elevation negated when the file says depth), one triangle per TRGL line joining the vertices of the three numbers, and every property with its values at every vertex.", "quantifier": "all files of the grammar: any numbers of lines, sections, vertices, triangles and properties, any first vertex number, any unknown lines", "why_tests_cant": "the grammar leaves the presence, the order and the number of the parts free; tests load two files", "anchors": ["src/geode/geosciences_io/mesh/gocad_common.cpp:133-197", "src/geode/geosciences_io/mesh/ts_input.cpp"]}
{"id": "C103", "title": "A GOCAD curve file is loaded as it says", "statement": "Whoever wrote it, a PLine file whose vertices are numbered consecutively is loaded as one curve: its name, one vertex per VRTX or PVRTX line, one edge per SEG line joining the vertices of the two numbers, whether or not the file ends with END.", "quantifier": "all files of the grammar: any numbers of lines, sections, vertices and segments, any first vertex number, any unknown lines", "why_tests_cant": "the grammar leaves the presence, the order and the number of the parts free; tests load two files", "anchors": ["src/geode/geosciences_io/mesh/gocad_common.cpp:95-127", "src/geode/geosciences_io/mesh/pl_input.cpp"]}
{"id": "C104", "title": "A GOCAD point set file is loaded as it says", "statement": "Whoever wrote it, a VSet file is loaded as one point set: its name, one point per VRTX or PVRTX line in order, and every property with its values at every point.", "quantifier": "all files of the grammar: any numbers of lines, sections, points and properties, any vertex numbers, any unknown lines", "why_tests_cant": "the grammar leaves the presence, the order and the number of the parts free; tests load two files", "anchors": ["src/geode/geosciences_io/mesh/gocad_common.cpp:199-232", "src/geode/geosciences_io/mesh/vs_input.cpp"]}
{"id": "C105", "title": "A GOCAD LightTSolid file is loaded as it says", "statement": "Whoever wrote it, a LightTSolid file (header, coordinate system, properties of the vertices and of the tetrahedra, vertices, then copies of vertices, region indicators, tetrahedra with the name of their region, MODEL part) is loaded as one model: its name; one unique vertex per original vertex; one horizon per SURFACE holding one surface per TFACE; each surface with exactly the vertices of its TRGL lines, each one once, its triangles joining the vertices of the numbers given; one block per MODEL_REGION with exactly the vertices of the tetrahedra of that region, each one once, its tetrahedra in order, every property of the vertices with its values; and every vertex of a surface or of a block attached to the unique vertex of its original.", "quantifier": "all files of the grammar: any numbers of vertices, copies, tetrahedra, horizons, faces, triangles, regions and properties, any skipped lines; files with properties of tetrahedra under the counting condition of C47", "why_tests_cant": "the grammar leaves the presence and the number of the parts free, and the renumbering depends on which vertices each part uses; tests load three files", "anchors": ["src/geode/geosciences_io/model/internal/lso_input.cpp:90-124", "src/geode/geosciences_io/model/internal/lso_input.cpp:126-154", "src/geode/geosciences_io/model/internal/lso_input.cpp:158-178", "src/geode/geosciences_io/model/internal/lso_input.cpp:180-222", "src/geode/geosciences_io/model/internal/lso_input.cpp:224-339", "src/geode/geosciences_io/model/internal/lso_input.cpp:341-406"]}
{"id": "C106", "title": "A GOCAD structural model file is loaded as it says", "statement": "Whoever wrote it, a Model3d file (header, coordinate system, TSURF, TFACE, REGION, LAYER and FAULT_BLOCK components, then one TSurf object per TSURF with one TFACE section per face) is loaded as the model it describes: its title; one surface per TFACE, in order; one horizon, fault or model boundary of the declared kind per TSURF, with exactly its faces; the faces of boundaries that are not around the universe together in one more boundary; one block per region with the surfaces given once as boundaries and those given twice as internal surfaces; the layers and the fault blocks with the blocks of their numbers; and each surface with the vertices and triangles of its section.", "quantifier": "all files of the grammar: any numbers of components, numbers over any lines, any skipped lines, vertices given or copied, any first vertex number; blocks of at least two surfaces", "why_tests_cant": "the meaning of a number depends on all the components before it, and the sections are cut by offsets accumulated over the object; tests load two files", "anchors": ["src/geode/geosciences_io/model/internal/ml_input.cpp:96-120", "src/geode/geosciences_io/model/internal/ml_input.cpp:490-519", "src/geode/geosciences_io/model/internal/ml_input.cpp:682-799", "src/geode/geosciences_io/model/internal/ml_input.cpp:801-1015"]}
{"id": "C107", "title": "What a saved PLine loads as, for every curve", "statement": "Saving any edged curve with at least one edge to .pl and loading it gives one vertex per vertex line, with the printed coordinates of the vertex of that line, and one edge per edge of the curve. Every edge comes back between vertex lines of its two ends, except, in each closed loop, the edge that comes back to the first vertex w of the loop's edge with the smallest number: that one ends at the vertex line number w + 1. Loading ends normally exactly when all these vertex lines exist (otherwise the behaviour is undefined), and the loaded curve is the saved one exactly when, for each loop, the line number w + 1 is the line of w.", "quantifier": "every edged curve with at least one edge and fewer than 2^32 vertices: any mix of open lines, branches and loops, any numbering", "why_tests_cant": "which loops survive depends on the numbering of the whole curve against the order in which the lines are followed; a test sees one numbering", "anchors": ["src/geode/geosciences_io/mesh/pl_output.cpp: get_edged_vertex_on_iline, write_ilines, starting_edge, write_edge_and_vertex", "src/geode/geosciences_io/mesh/gocad_common.cpp: read_ilines", "src/geode/geosciences_io/mesh/pl_input.cpp: build_curve"]}
{"id": "C108", "title": "How loading any well file ends", "statement": "Loading a well always ends. A .dat or .txt file loads exactly when it has at least one line and every line is three numbers; one other line (even a blank one) makes it throw; a file without lines is undefined behaviour. A .wl file never reads out of bounds when the lines of its coordinate system section have words, closed quotes and the values their keywords announce. A .dev file whose names have a fourth word and whose lines of column names have X, Y and Z exactly once each loads exactly when no column is called points, it has at least one row and every row has one number per column; it throws on any other row, and without rows the behaviour is undefined.", "quantifier": "every text with fewer than 2^32 lines; any number of header lines, columns (repeated names included) and rows", "why_tests_cant": "the statement decides every input, including all malformed ones; tests load a few files that are well formed", "anchors": ["include/geode/geosciences_io/mesh/internal/well_input.hpp: read_file, read_coord", "src/geode/geosciences_io/mesh/wl_input.cpp: read_file, read_paths", "src/geode/geosciences_io/mesh/well_dev_input.cpp: read_file, read_header, assign_point_attributes", "src/geode/geosciences_io/mesh/gocad_common.cpp: read_CRS"]}
{"id": "C109", "title": "How loading a Voxet ends", "statement": "Loading a .vo file always ends. It never reads or writes out of bounds when the lines of the coordinate system section have words, closed quotes and the values their keywords announce, each AXIS_N line has three more words, they describe fewer than 2^32 cells and every row of the data file that begins by three indices is about a cell of the grid. For a described grid and a data file with at least two lines: fewer than four words on the second line throw, a row that is not three indices and a number for each property throws, and otherwise the file loads.", "quantifier": "every text, every content of the data files, any number of properties (repeated names included) and rows", "why_tests_cant": "the statement decides every input, including malformed ones; tests load a few well formed files", "anchors": ["src/geode/geosciences_io/mesh/vo_input.cpp: read_file, initialize_grid, read_cells_number, read_data_file, get_data_file", "src/geode/geosciences_io/mesh/gocad_common.cpp: read_CRS"]}
{"id": "C110", "title": "Every format is found by its extension", "statement": "Once the libraries are initialised, whatever the other libraries have registered, every reader and every writer of the library is the one found for its kind of object and its extension (unless another library had taken that extension before), no format of another library is lost and no other format appears. The order of the registrations does not matter, initialising again changes nothing, and what the library saves under an extension it can load under that extension.", "quantifier": "every state of the registries before the initialisation, every order of the registrations", "why_tests_cant": "the registries are global and shared with other libraries; a test only sees the formats it tries in one order of initialisation", "anchors": ["src/geode/geosciences_io/mesh/common.cpp: register_*_input, register_*_output, OpenGeodeGeosciencesIOMeshLibrary initialize", "src/geode/geosciences_io/model/common.cpp: register_*, initialize", "include/geode/geosciences_io/*/internal/*.hpp: extensions()"]}
{"id": "C111", "title": "GEOS export: the files and the document go together", "statement": "An export into a directory writes the solid, one file per well and the XML document, all in that directory, under names made from its name, no two alike; the document names the file of the solid and lists exactly the fields that are on it, and has one box per well, in order, each the box of its well; without wells it has no geometry. Exports into different directories never touch each other's files. If a mesh file cannot be written the export throws.", "quantifier": "every directory path, every model, every list of properties and wells, every set of files that cannot be written", "why_tests_cant": "names of directories (dots, slashes) and numbers of wells are unbounded; failures of the disk are not tested", "anchors": ["src/geode/geosciences_io/model/internal/geos_export.cpp: constructor, write_files, write_mesh_files, write_solid_file, write_well_perforation_file, write_well_perforations_boxes"]}
{"id": "C112", "title": "GEOS export: the written boxes contain the perforations", "statement": "The numbers written in the XML document for the box of a well bound every perforation of the well that is located in a cell.", "quantifier": "every mesh, every list of wells, every size of the coordinates", "why_tests_cant": "The error comes from the number of digits printed and depends on the size of the coordinates; upstream only compares small examples", "anchors": ["src/geode/geosciences_io/model/internal/geos_export.cpp: write_well_perforations_boxes"]}
{"id": "C113", "title": "How loading a structural model (.ml) ends", "statement": "Whatever its components are, loading a structural model either succeeds or throws, except exactly when the component section has no meaning (a blank line, a TFACE or REGION line without its words, a list of numbers without a zero, a region with fewer than two surfaces or with an unknown surface) or when an object does not have the sections, or the triangles within their sections, that the declared surfaces need: then the behaviour is undefined or loading never ends. The names, surfaces and numbers of surfaces kept are those of the text.", "quantifier": "every .ml file of fewer than 2^32 lines whose lines have the words the readers of the objects need", "why_tests_cant": "the malformed component sections are infinitely many and undefined behaviour does not show up as a failing assertion", "anchors": ["src/geode/geosciences_io/model/internal/ml_input.cpp:96-120", "src/geode/geosciences_io/model/internal/ml_input.cpp:490-519", "src/geode/geosciences_io/model/internal/ml_input.cpp:682-799", "src/geode/geosciences_io/model/internal/ml_input.cpp:801-1015"]}
{"id": "C114", "title": "How loading a solid (.lso) ends", "statement": "A file made of complete lines is loaded or refused by an exception - never undefined behaviour, never an endless loop - when its property sections hold the values they announce, every vertex line has its words, every copy refers to a vertex defined before it, the vertices are followed by pairs of lines giving the tetrahedra with known vertices and a block name, the triangles refer to vertices that are not copies, the regions have a name, and, with properties of tetrahedra, no vertex number exceeds the number of tetrahedra and no block has more vertices than tetrahedra. Two properties with the same name have the same number of components (below four) in a loaded file.", "quantifier": "every text (any numbers of vertices, copies, tetrahedra, surfaces, regions and properties)", "why_tests_cant": "undefined behaviour does not show up as a failing assertion and the malformed files are infinitely many", "anchors": ["src/geode/geosciences_io/model/internal/lso_input.cpp:90-124", "src/geode/geosciences_io/model/internal/lso_input.cpp:126-222", "src/geode/geosciences_io/model/internal/lso_input.cpp:224-354", "src/geode/geosciences_io/model/internal/lso_input.cpp:356-406", "src/geode/geosciences_io/mesh/gocad_common.cpp:489-541"]}
{"id": "C115", "title": "Saving again what was loaded gives the same file", "statement": "A surface or a non-empty point set with a clean name that was saved, loaded and is saved again gives the same file byte for byte, provided its attributes come in the same order; in particular the numbers, which lose digits the first time, do not drift: printing with six digits, reading to the nearest double and printing again gives the same text.", "quantifier": "all surfaces and point sets, all numbers, every rounding within half a unit in the last place", "why_tests_cant": "byte equality after two round trips of all numbers, including those next to a power of ten, cannot be tested exhaustively", "anchors": ["src/geode/geosciences_io/mesh/ts_output.cpp:56-178", "src/geode/geosciences_io/mesh/ts_input.cpp:54-101", "src/geode/geosciences_io/mesh/vs_output.cpp:56-167", "src/geode/geosciences_io/mesh/vs_input.cpp:52-80"]}
{"id": "C116", "title": "A loaded structural model is consistent", "statement": "Whatever the .ml file, when it is loaded every surface has exactly one mesh and is in exactly one of the collections made from the TSURF lines; every surface of a block or of a collection and every block of a unit or of a fault block exists; every triangle joins vertices of its mesh; the only additional collection is the undefined boundary, made of surfaces that are already in a boundary.", "quantifier": "all texts that are loaded, whether or not they follow the format", "why_tests_cant": "malformed and unusual files that are nevertheless accepted cannot be enumerated", "anchors": ["src/geode/geosciences_io/model/internal/ml_input.cpp:96-118", "src/geode/geosciences_io/model/internal/ml_input.cpp:490-519", "src/geode/geosciences_io/model/internal/ml_input.cpp:682-1015"]}
{"id": "C117", "title": "A loaded solid is consistent", "statement": "Whatever the .lso file, when it is loaded every corner of a cell is a vertex of its mesh and every vertex is the corner of a cell; every vertex has a unique vertex of the model; the horizons split the surfaces into consecutive groups; the boundaries and the internal surfaces of a block exist, are listed once and are not both; every attribute has one value for each vertex or cell; and the vertices with the same unique vertex are at the same place.", "quantifier": "all texts that are loaded, whether or not they follow the format", "why_tests_cant": "malformed and unusual files that are nevertheless accepted cannot be enumerated", "anchors": ["src/geode/geosciences_io/model/internal/lso_input.cpp:112-354", "src/geode/geosciences_io/model/internal/lso_input.cpp:356-469"]}
{"id": "C118", "title": "What is loaded is valid", "statement": "Whatever the file, a surface, point set, curve or well that is loaded has cells that join its own vertices and attributes with distinct names and one value for each vertex; a well is a single line that goes through its points in order; a voxet has one value of each attribute for each cell.", "quantifier": "all texts that are loaded, whether or not they follow the format", "why_tests_cant": "malformed and unusual files that are nevertheless accepted cannot be enumerated", "anchors": ["src/geode/geosciences_io/mesh/ts_input.cpp:54-101", "src/geode/geosciences_io/mesh/vs_input.cpp:52-80", "src/geode/geosciences_io/mesh/pl_input.cpp:52-80", "src/geode/geosciences_io/mesh/wl_input.cpp:52-115", "src/geode/geosciences_io/mesh/well_dev_input.cpp:61-203", "src/geode/geosciences_io/mesh/vo_input.cpp:79-208", "include/geode/geosciences_io/mesh/internal/well_input.hpp:54-80"]}
{"id": "C119", "title": "Windows line ends change nothing, in any format", "statement": "For every text with LF line ends, the text with CR LF line ends (and CR LF in the files it refers to) loads as the same well, Voxet, grid, structural model or solid, or fails in the same way; it is announced loadable or not in the same way, and the same additional files are announced.", "quantifier": "all texts, including malformed ones, and all contents of the other files", "why_tests_cant": "every line of every format would have to be tried with both line ends, in files of any shape", "anchors": ["src/geode/geosciences_io/mesh/wl_input.cpp:52-115", "src/geode/geosciences_io/mesh/well_dev_input.cpp:61-203", "include/geode/geosciences_io/mesh/internal/well_input.hpp:54-80", "src/geode/geosciences_io/mesh/vo_input.cpp:51-246", "src/geode/geosciences_io/mesh/grdecl_input.cpp:78-237", "src/geode/geosciences_io/model/internal/ml_input.cpp:96-118", "src/geode/geosciences_io/model/internal/lso_input.cpp:90-124"]}
{"id": "C120", "title": "The same solid is always exported as the same FEM file", "statement": "Exporting the same solid twice gives the same file, whatever the order in which the hash tables of the exporter are visited.", "quantifier": "all solids, all iteration orders of the hash tables (any permutation of the entries)", "why_tests_cant": "the iteration order of absl hash tables changes with the process and the addresses; a test sees one order", "anchors": ["src/geode/geosciences_io/mesh/fem_output.cpp:230-248", "src/geode/geosciences_io/mesh/fem_output.cpp:382-406", "src/geode/geosciences_io/mesh/fem_output.cpp:440-459", "src/geode/geosciences_io/mesh/fem_output.cpp:1036-1095"]}
{"id": "C121", "title": "What is saved is announced loadable", "statement": "A file written by the TSurf, VSet, PLine, ML or LSO writer is answered as loadable by is_loadable of the reader of the same format.", "quantifier": "all meshes, models and solids, with any names and titles (ends of line included)", "why_tests_cant": "every content would have to be saved; a strange title could hide the object line", "anchors": ["src/geode/geosciences_io/mesh/ts_output.cpp:56-71", "src/geode/geosciences_io/mesh/ts_input.cpp:123-131", "src/geode/geosciences_io/mesh/vs_output.cpp:56-71", "src/geode/geosciences_io/mesh/pl_output.cpp:58-103", "include/geode/geosciences_io/model/internal/ml_output_impl.hpp:104-116", "src/geode/geosciences_io/model/internal/lso_output.cpp:79-94"]}
{"id": "C122", "title": "FEM discrete features are a well formed document", "statement": "In every FEM file with discrete features, the section between DFE and END is a well formed document: every element is closed by its own tag in the right order, there is exactly one top element, and each CDATA section is closed.", "quantifier": "every solid, every number of facets and edges, every iteration order of the tables", "why_tests_cant": "The tag structure depends on which attributes exist and on how many features and chunks there are.", "anchors": ["src/geode/geosciences_io/mesh/fem_output.cpp:879-1214"]}
{"id": "C123", "title": "FEM files have exactly the sections of the solid", "statement": "In every FEM file written for a solid whose names are single lines that do not begin with a blank, the lines that do not begin with a blank are exactly the section headers, in order: the fixed ones, one per exported attribute, NODALSETS and ELEMENTALSETS exactly when the block attributes exist.", "quantifier": "every solid, every set of attributes, every assignment of blocks", "why_tests_cant": "A value, a name or a missing attribute could add or remove a header for inputs no test uses.", "anchors": ["src/geode/geosciences_io/mesh/fem_output.cpp:121-207", "src/geode/geosciences_io/mesh/fem_output.cpp:230-503"]}
{"id": "C124", "title": "FEM export accepts exactly the models whose vertices are all on blocks", "statement": "A BRep is accepted for FEM export exactly when each vertex of the resulting solid gets at least one block name; then every vertex number is listed in at least one nodal set.", "quantifier": "every BRep, every assignment of vertices to blocks, every iteration order", "why_tests_cant": "Quantifies over all vertices of all models.", "anchors": ["src/geode/geosciences_io/model/internal/brep_fem_output.cpp:261-285", "src/geode/geosciences_io/model/internal/brep_fem_output.cpp:355-366", "src/geode/geosciences_io/mesh/fem_output.cpp:440-459"]}
{"id": "C125", "title": "Corners of a loaded ML model", "statement": "When an .ml file is loaded, the vertices that get a corner are exactly those named by a BSTONE line; each gets the first corner near its point; no two corners of the model are near each other and each is the point of a BSTONE.", "quantifier": "every list of surfaces and of BSTONE lines, every nearness test", "why_tests_cant": "Depends on the order and on the coincidence of points of an arbitrary number of corners.", "anchors": ["src/geode/geosciences_io/model/internal/ml_input.cpp:165-211"]}
{"id": "C126", "title": "Unique vertices of a loaded ML model tell which vertices coincide", "statement": "After an .ml file is loaded, every vertex of every surface has a unique vertex; two vertices with the same one are at the same place; only unique vertices of lines are shared; and a vertex at the place of a line vertex has its unique vertex (if no two unique vertices of the lines are at one place).", "quantifier": "every list of surfaces, corners and borders for which loading succeeds, every nearness that is an equivalence", "why_tests_cant": "The numbers are given in four passes (corners, lines, surfaces along the lines, remaining vertices); each can clash with the others for some input.", "anchors": ["src/geode/geosciences_io/model/internal/ml_input.cpp:165-211", "src/geode/geosciences_io/model/internal/ml_input.cpp:301-371", "src/geode/geosciences_io/model/internal/ml_input.cpp:515-598"]}
{"id": "C127", "title": "Structural models accepted by the LSO export are exported", "statement": "Every structural model that is_saveable accepts for .lso is exported, and each of its blocks is then the block of a tetrahedron of the file.", "quantifier": "every structural model, every assignment of sides", "why_tests_cant": "The export reads the first block of each unique vertex, the first boundary of each block, its side and its number in tables that is_saveable does not look at.", "anchors": ["src/geode/geosciences_io/model/internal/lso_output.cpp:79-122", "src/geode/geosciences_io/model/internal/lso_output.cpp:207-270", "src/geode/geosciences_io/model/internal/lso_output.cpp:295-319"]}
{"id": "C128", "title": "A GRDECL file is loaded only when its sections are complete", "statement": "A .grdecl file that is loaded has a SPECGRID section with the dimensions, a COORD section with one pillar for each of the (nx+1)(ny+1) grid lines, and a ZCORN section with exactly 8*nx*ny*nz depths, in the file or in included files; the loaded grid has nx*ny*nz hexahedra. Conversely a file with these sections is loaded.", "quantifier": "for every text, every content of the other files, every spacing and line layout of the sections, every grid size whose number of corners fits 32 bits", "why_tests_cant": "an incomplete section may show only for some sizes: one needs every layout of tokens on lines and every number of missing or additional values", "anchors": ["src/geode/geosciences_io/mesh/grdecl_input.cpp:78-89", "src/geode/geosciences_io/mesh/grdecl_input.cpp:120-225"]}
{"id": "C129", "title": "Neighbouring cells of a corner-point grid share their vertices", "statement": "In a loaded corner-point grid, two corners (of the same or of different cells) that are on the same pillar at equal depths are the same vertex, and all vertices of cells exist; two corners of one pillar at different depths are different vertices when the pillar ends are at two depths.", "quantifier": "for all cells, all corners, all grid sizes, all pillars and depths", "why_tests_cant": "the sharing is decided for each pair of corners among 8*nx*ny*nz; an error for one corner only shows as a crack in some grids", "anchors": ["src/geode/geosciences_io/mesh/grdecl_input.cpp:286-337"]}
{"id": "C130", "title": "Structural models accepted by the ML export are exported", "statement": "Every structural model that is_saveable accepts for .ml (all polygons are triangles) is exported.", "quantifier": "every structural model, every name, type and relation of its components, every assignment of sides", "why_tests_cant": "The export reads the name of each fault, horizon and unit, the type of each horizon, the first triangle of each surface, and the side and number of each boundary in tables that is_saveable does not look at.", "anchors": ["include/geode/geosciences_io/model/internal/ml_output_impl.hpp:62-76", "include/geode/geosciences_io/model/internal/ml_output_impl.hpp:144-294", "src/geode/geosciences_io/model/internal/ml_output_structural_model.cpp:55-266"]}
{"id": "C131", "title": "Comment lines in GOCAD files are ignored", "statement": "A TSurf, PLine or VSet file with comment lines (beginning with #) added anywhere is loaded as the same mesh, or fails in the same way, as without them.", "quantifier": "every file, any number of comments, any text after the sharp, any place in the file", "why_tests_cant": "Comments can be anywhere and contain anything, including keywords; the reader has six different ways of looking for the next line (next line only, search of a prefix, first word).", "anchors": ["src/geode/geosciences_io/mesh/gocad_common.cpp:95-232", "src/geode/geosciences_io/mesh/gocad_common.cpp:328-461", "src/geode/geosciences_io/mesh/gocad_common.cpp:618-663"]}
{"id": "C132", "title": "A GOCAD mesh file cut short is refused", "statement": "A TSurf, VSet or PLine file that stops before the END line of its last object is refused with an exception; nothing of the unfinished object is loaded.", "quantifier": "every file that can be loaded, any number of objects, cut at any place inside its last object", "why_tests_cant": "The file can be cut anywhere: in the header, in the coordinate system, between the property lines, in the data or inside a line, and each part of the reader meets the end of the file in its own way.", "anchors": ["src/geode/geosciences_io/mesh/gocad_common.cpp:95-232", "src/geode/geosciences_io/mesh/gocad_common.cpp:618-663", "src/geode/geosciences_io/mesh/pl_input.cpp:52-80"]}
{"id": "C133", "title": "A saved GOCAD file is made of whole objects and announces elevations in metres", "statement": "A saved TSurf, VSet, PLine or LightTSolid file is one whole object: its kind, its header with its name, the coordinate system (axes X, Y, Z in metres, positive upwards), its data, END. A saved ML file is a whole Model3d object followed by one whole TSurf object for each boundary, fault, horizon and free surface, in this order and under its name. No data line can be taken for the beginning or the end of an object. Meshes declare one property class for each coordinate, the third one vertical, and one for each numeric attribute.", "quantifier": "every mesh or model that is saved, any number of vertices, cells, attributes, collections", "why_tests_cant": "Other programs read these files object by object; the lines come from a dozen functions shared by several writers, for any attribute, name or collection.", "anchors": ["src/geode/geosciences_io/mesh/gocad_common.cpp:353-415", "src/geode/geosciences_io/mesh/gocad_common.cpp:595-609", "src/geode/geosciences_io/mesh/ts_output.cpp:56-178", "src/geode/geosciences_io/mesh/vs_output.cpp:56-167", "src/geode/geosciences_io/mesh/pl_output.cpp:58-265", "src/geode/geosciences_io/model/internal/lso_output.cpp:79-252", "src/geode/geosciences_io/model/internal/ml_output_structural_model.cpp:161-212"]}
{"id": "C134", "title": "Which shapefiles are loaded, how loading ends, and the consistency of the section", "statement": "A shapefile is loaded exactly when no feature of its point, polyline and polygon layers misses its geometry, every polyline has a point (two when it is closed) and every ring at least four points; layers of other types are ignored. The section is then consistent: edges and polygons join existing vertices, each vertex of a line or surface has its own unique vertex, no unique vertex is used twice and all are below the number of unique vertices. Loading never runs forever, the only exception is the one of a missing geometry, and only a polyline or ring that is too short makes the behaviour undefined.", "quantifier": "every list of layers, of features and of points, every comparison of points, every triangulation that uses the points it is given", "why_tests_cant": "Tests load a few files; the numbering of vertices and unique vertices runs across features, rings and layers of any number, and the failing cases are malformed files.", "anchors": ["src/geode/geosciences_io/model/internal/shp_input.cpp:61-264"]}
{"id": "C135", "title": "Which elevation rasters are loaded, and the surface that is loaded", "statement": "An elevation raster is loaded exactly when it has fewer than 2^32 pixels. The surface has one vertex for each pixel with data; every polygon joins four distinct existing vertices; a vertex is in a polygon exactly when its pixel is in a block of two by two pixels with data, so that the other vertices are isolated; a raster without missing data gives all its pixels and all its blocks.", "quantifier": "every width, height, list of elevations, value of missing data and georeference", "why_tests_cant": "Tests use one small raster; missing data can be anywhere, and the size at which the 32-bit products wrap cannot be tested in practice.", "anchors": ["src/geode/geosciences_io/mesh/dem_input.cpp:51-134"]}
{"id": "C136", "title": "The order of the units in a SKUA column file does not matter", "statement": "Two stratigraphic column files that list the same units in any order give the same horizons with the same contact types, the same units, and the same relations between them, each relation being between an existing horizon and an existing unit.", "quantifier": "every pair of documents whose unit elements are the same up to their order, any number of units, tops and bases", "why_tests_cant": "Contact types are updated entry after entry, depending on the type set by the entries before; tests load one file.", "anchors": ["src/geode/geosciences_io/model/internal/horizons_stack_skua_input.cpp:56-146"]}
{"id": "C137", "title": "A well file cut short never gives a wrong trajectory", "statement": "When a well file (.wl, .dat, .txt, .dev) that can be loaded is cut between two lines, what is left is refused with an exception or gives the beginning of the same well: same name, the first points joined in order, the same attributes with the same values on these points.", "quantifier": "every file that can be loaded, cut after any number of its lines", "why_tests_cant": "The file can be cut in the header, in the coordinate system, between the columns of the header and the rows, or in the trajectory; a test cuts one file at one place.", "anchors": ["src/geode/geosciences_io/mesh/wl_input.cpp:52-115", "include/geode/geosciences_io/mesh/internal/well_input.hpp:54-80", "src/geode/geosciences_io/mesh/well_dev_input.cpp:61-203"]}
{"id": "C138", "title": "A structural model file cut short is never loaded as another model", "statement": "When a .ml file that can be loaded is cut between two lines, what is left gives the same model (only lines after its last surface object were lost) or is refused with an exception; in no case is an incomplete model returned.", "quantifier": "every .ml file that can be loaded, cut after any number of its lines", "why_tests_cant": "The file is read in stages (header, coordinate system, components with lists of numbers, one surface object for each TSURF) and each stage meets the end of the file in its own way; a test cuts one file at one place.", "anchors": ["src/geode/geosciences_io/model/internal/ml_input.cpp:96-121", "src/geode/geosciences_io/model/internal/ml_input.cpp:682-722", "src/geode/geosciences_io/model/internal/ml_input.cpp:861-1015"]}
{"id": "C139", "title": "A .lso file cut short never gives another model than a part of its own", "statement": "When a .lso file that can be loaded is cut between two lines, what is left is refused with an exception, or reads words that do not exist (only when the text stops inside the vertices or the tetrahedra), or gives a part of the model: the same name, the same number of unique vertices, the first surfaces (the last one possibly with its first triangles only), the first horizons, and no block unless all the surfaces are there.", "quantifier": "every .lso file that can be loaded, cut after any number of its lines", "why_tests_cant": "The reader has no end marker for surfaces and blocks and tests the end of the file nowhere; what happens depends on which of six nested loops meets the end, a test cuts one file at one place.", "anchors": ["src/geode/geosciences_io/model/internal/lso_input.cpp:90-124", "src/geode/geosciences_io/model/internal/lso_input.cpp:182-354"]}
{"id": "C140", "title": "A grid file cut short never gives another grid", "statement": "When a Voxet file that can be loaded is cut between two lines it gives the same grid or is refused. When its data file is cut, the grid and the names of the properties are the same and only the cells of the lost rows may have other values. When a GRDECL file without INCLUDE is cut, the grid is the same or none is returned.", "quantifier": "every Voxet file, data file and GRDECL file without INCLUDE that can be loaded, cut after any number of lines", "why_tests_cant": "Each section is searched or read until its own end mark and the end of the file is not tested; a test cuts one file at one place.", "anchors": ["src/geode/geosciences_io/mesh/vo_input.cpp:51-208", "src/geode/geosciences_io/mesh/grdecl_input.cpp:78-225"]}
{"id": "C141", "title": "Objects of other kinds in a GOCAD file change nothing", "statement": "Reading the surfaces (or the point sets, or the lines) of a GOCAD file that holds objects of several kinds gives exactly what a file with those objects alone gives, wherever the others are.", "quantifier": "every list of whole objects in any order, the objects of the kind read being loadable from a file of their own; and any lines at all that do not begin an object of that kind, put behind any loadable beginning", "why_tests_cant": "The readers look for the next object from wherever the previous one left the file, and inside an object they look for keywords without noticing its end; the tests only have files with one kind of object.", "anchors": ["src/geode/geosciences_io/mesh/ts_input.cpp:54-121", "src/geode/geosciences_io/mesh/vs_input.cpp:52-110", "src/geode/geosciences_io/mesh/pl_input.cpp:52-120", "src/geode/geosciences_io/mesh/gocad_common.cpp"]}
{"id": "C142", "title": "Models accepted by the ML export are exported, with the sides found from their geometry", "statement": "A BRep is exported to .ml exactly when the sides of its surfaces can be found and every surface has a triangle, whatever the names and the other collections; a structural model needs in addition the conditions of C130. What is exported with those sides is loaded again with the same surfaces, blocks and collections.", "quantifier": "every sound BRep and structural model, every geometry", "why_tests_cant": "The sides, the numbering and the export are computed in different places; the sides are looked up with at() while writing, after the file has been opened, and a test only has a few well-formed models.", "anchors": ["src/geode/geosciences_io/model/internal/ml_output_brep.cpp:37-114", "include/geode/geosciences_io/model/internal/ml_output_impl.hpp:104-294", "src/geode/geosciences_io/model/internal/gocad_common.cpp:48-275"]}
{"id": "C143", "title": "Structural models accepted by the LSO export are exported, with the sides found from their geometry", "statement": "A structural model that is_saveable accepts is exported to .lso exactly when the sides of its surfaces can be found, every unique vertex is one of a block and the first boundary of every block is in a horizon, a fault or a model boundary; what is exported is loaded again.", "quantifier": "every sound structural model that is_saveable accepts, every geometry", "why_tests_cant": "is_saveable only looks at the meshes; the sides are computed when the file is already open and only then is it seen that the model has no model boundary.", "anchors": ["src/geode/geosciences_io/model/internal/lso_output.cpp:58-122", "src/geode/geosciences_io/model/internal/lso_output.cpp:287-319", "src/geode/geosciences_io/model/internal/gocad_common.cpp:262-275"]}
{"id": "C144", "title": "Saving again a curve loaded from a .pl file gives the same file", "statement": "A curve that was saved to .pl and came back is saved again to the same file byte for byte, whatever the order in which the edges of the loaded curve are found around its vertices: the writer finds the same lines and loops in the same order and with the same numbers, and the numbers do not drift. A curve comes back when no part of it is a loop, when its loops are numbered in order, and more generally when the vertex line with the number of the first vertex of each loop is the line of that vertex.", "quantifier": "every edged curve with at least one edge: any mix of open lines, branches and loops; every order of the edges around the vertices of the loaded curve", "why_tests_cant": "byte equality of two files written from two different graphs, for every graph, cannot be tested exhaustively", "anchors": ["src/geode/geosciences_io/mesh/pl_output.cpp:142-251", "src/geode/geosciences_io/mesh/pl_input.cpp:52-80", "src/geode/geosciences_io/mesh/gocad_common.cpp: read_ilines"]}
{"id": "C145", "title": "A solid loaded from a .lso file can be saved again to .lso", "statement": "A structural model that was saved to .lso and loaded back is accepted again by is_saveable and can be saved again to .lso; what is loaded from the second file is what was loaded from the first: the unique vertices, the blocks with their tetrahedra, the surfaces. (The reader creates horizons only, so the loaded model has no model boundary and the export always refuses it until the user adds one; then it is saved.)", "quantifier": "every file and every model loaded from it; for the saving part: every model that can be saved, every set of model boundaries added to the loaded model, every geometry for which the sides are found, every order in which the components are stored", "why_tests_cant": "the refusal concerns every loaded model and every geometry; tests save one model built in memory, never a loaded one", "anchors": ["src/geode/geosciences_io/model/internal/lso_input.cpp:223-263", "src/geode/geosciences_io/model/internal/lso_output.cpp:58-63", "src/geode/geosciences_io/model/internal/lso_output.cpp:287-293"]}
{"id": "C146", "title": "A structural model loaded from a .ml file can be saved again to .ml", "statement": "Whatever the .ml file, the model loaded from it can be exported to .ml as soon as its sides are found and every surface has a triangle: the loader gives a name to every collection and only contact types the exporter can write. A model exported to .ml, loaded and exported again gives a second file from which the first model is loaded: surfaces, collections with their kinds and names, blocks, units and fault blocks. (False when a surface is in no collection: the first load puts it in two model boundaries and the second file cannot be loaded.)", "quantifier": "every file and every model loaded from it; for the second part: every model that can be exported with its surfaces all in a model boundary, a fault or a horizon, every geometry for which the sides are found, every order and every identifiers of the loaded components", "why_tests_cant": "the number of components and the orders of iteration are unbounded and tests export a model once, never a loaded one", "anchors": ["src/geode/geosciences_io/model/internal/ml_input.cpp:723-799", "src/geode/geosciences_io/model/internal/ml_input.cpp:1029-1040", "src/geode/geosciences_io/model/internal/ml_output_structural_model.cpp:55-95", "include/geode/geosciences_io/model/internal/ml_output_impl.hpp:104-129"]}
{"id": "C147", "title": "What an exported .ml file needs to be loaded again", "statement": "If the file exported from a model can be loaded, then its objects (the model boundaries, the faults, the horizons, then the surfaces in no collection) have pairwise different names as read back, and each of them has a surface that is in none of the objects before it; so any choice of objects has at least as many surfaces as objects. In particular a model saved, loaded and saved again gives a file that can be loaded exactly when every surface of the first model was in a model boundary, a fault or a horizon.", "quantifier": "every model the exporter accepts, whatever surfaces its collections share, whatever their order; names without line feeds", "why_tests_cant": "collections that overlap, in every order: the tests have disjoint ones, and a file that cannot be loaded shows only when it is loaded", "anchors": ["include/geode/geosciences_io/model/internal/ml_output_impl.hpp: write_tsurfs, write_tfaces, write_key_triangle", "src/geode/geosciences_io/model/internal/ml_input.cpp: process_TFACE_keyword, create_tsurfs", "src/geode/geosciences_io/model/internal/ml_input.cpp:723-799"]}
{"id": "C148", "title": "Which corner-point grids are loaded when sections are in included files", "statement": "A GRDECL file is loaded exactly when its pillars and its depths are found, the depths are exactly 8 nx ny nz and the pillars at most (nx+1)(ny+1): a section is read from the last included file whose name announces its keyword, whatever the place of its INCLUDE line, otherwise from the lines after the last INCLUDE. Where the sections are does not change the grid, a section that is not found (missing file, or section before the last INCLUDE) always gives an exception, and any file name may be used.", "quantifier": "every text, every set of other files, every number and order of INCLUDE lines, last line ended or not", "why_tests_cant": "the test files have the two sections in one layout; the map of the included files depends on every line of the file", "anchors": ["src/geode/geosciences_io/mesh/grdecl_input.cpp:78-118", "src/geode/geosciences_io/mesh/grdecl_input.cpp: read_pillars_with_file, read_depths_with_file"]}
{"id": "C149", "title": "What an .lso file keeps of the names of the blocks", "statement": "Of the name of each block exactly the first word survives saving to .lso and loading. Two models that differ only by what follows the first words of the names of their blocks are loaded as the same model. Each block is loaded under its first word with the tetrahedra (same unique vertices, same places) of all the blocks whose name begins with that word, so it keeps exactly its own tetrahedra when the first words are distinct.", "quantifier": "every model that can be saved, with block names of any number of words (at least one), equal or not", "why_tests_cant": "depends on all names; the test model has one-word names", "anchors": ["src/geode/geosciences_io/model/internal/lso_output.cpp: write_regions, write_tetrahedron", "src/geode/geosciences_io/model/internal/lso_input.cpp:341-354", "src/geode/geosciences_io/model/internal/lso_input.cpp:190-212"]}
{"id": "C150", "title": "How the numbers of a GRDECL file may be laid out", "statement": "The depths can be spread over the lines of the ZCORN section in any way, with blank lines anywhere: the grid is the same, and a file that fails does so in the same way. Blank lines between pillars change nothing. Everything else the Eclipse format allows inside the sections (repeat counts such as 8*1000, comments, the closing slash after the last value) makes the loading fail with an exception, and never gives another grid. The coordinates of the pillars can likewise be spread over the lines.", "quantifier": "every grid, every arrangement of words over lines, every word that is not a number", "why_tests_cant": "the arrangements and the words are unbounded; the test files have one layout", "anchors": ["src/geode/geosciences_io/mesh/grdecl_input.cpp:133-149", "src/geode/geosciences_io/mesh/grdecl_input.cpp:151-192", "src/geode/geosciences_io/mesh/grdecl_input.cpp:207-225"]}
{"id": "C151", "title": "The spacing inside the lines of a file does not matter", "statement": "Replacing the blanks between the words of lines by any other number of spaces or tabs, or adding blanks at the ends of lines, changes nothing: a surface, point set, curve, well, structural model, solid, Voxet (with its data file) or corner-point grid (with the files it includes) is loaded as the same object, or fails in the same way, and the file is announced loadable or not in the same way. The indentation, the spacing of the first line and the spacing of the line that names the data file of a Voxet do not matter either.", "quantifier": "every text, including malformed ones, every spacing of its lines", "why_tests_cant": "unbounded texts and spacings; the test files have one spacing", "anchors": ["src/geode/geosciences_io/mesh/gocad_common.cpp", "src/geode/geosciences_io/mesh/ts_input.cpp", "src/geode/geosciences_io/mesh/well_dat_input.cpp", "src/geode/geosciences_io/model/internal/lso_input.cpp", "src/geode/geosciences_io/model/internal/ml_input.cpp", "src/geode/geosciences_io/mesh/vo_input.cpp", "src/geode/geosciences_io/mesh/grdecl_input.cpp"]}
{"id": "C152", "title": "The rows of a Voxet data file may come in any order", "statement": "When a Voxet has at most one row of values for each cell, the order of the rows in its data file does not matter: the same grid with the same values is loaded, or the file is refused in the same way.", "quantifier": "every text of a Voxet, every data file, every permutation of its rows", "why_tests_cant": "unbounded numbers of rows and permutations; the test file has one order", "anchors": ["src/geode/geosciences_io/mesh/vo_input.cpp"]}
{"id": "C153", "title": "Other sections in a GRDECL file change nothing", "statement": "A GRDECL file may have other sections (active cells, properties, faults), comments and blank lines before, between and after the dimensions, the pillars and the depths: the grid loaded is the one of these three sections. The three sections must come in this order; a file with another order is refused with an exception and never loaded as another grid.", "quantifier": "every grid, every list of other lines, every place between the sections, every order of the sections", "why_tests_cant": "unbounded grids and other sections; the test files have a few fixed ones", "anchors": ["src/geode/geosciences_io/mesh/grdecl_input.cpp"]}
{"id": "C154", "title": "A Voxet that is moved keeps its cells", "statement": "The place of a Voxet changes nothing else: when the grid is moved, it is loaded with the same numbers of cells, the same cell lengths and the same values, at the new origin, and a file that is refused is refused in the same way. As the axes of a GOCAD file are vectors, changing the origin only is enough to move the grid.", "quantifier": "every grid, every move that keeps the distances, every data file, every outcome", "why_tests_cant": "a relation between two files, for all grids; the test file has its origin at zero, where a vector and a point are the same", "anchors": ["src/geode/geosciences_io/mesh/vo_input.cpp"]}
{"id": "C155", "title": "The lines of a Voxet file that count", "statement": "A Voxet depends only on its name, its coordinate system, its origin, axes and their range, its numbers of cells and its data file; any other line of the file changes nothing. With depths instead of elevations the z coordinates change sign.", "quantifier": "every file, any other lines at any place, every coordinate system", "why_tests_cant": "a relation between two files with unbounded other lines; the test file has elevations and axes from 0 to 1", "anchors": ["src/geode/geosciences_io/mesh/vo_input.cpp"]}
{"id": "C156", "title": "All the stations of a .wl file are loaded", "statement": "The trajectory of a .wl well has one vertex for each PATH line of the file, in order, at its place, each joined to the next one; comments and blank lines change nothing. Moving the reference point horizontally moves the whole well and changes nothing else.", "quantifier": "every well, any number of stations, any reference point, elevations or depths", "why_tests_cant": "unbounded trajectories and a relation between two files; the test file has its first station at the reference point and nothing between the stations", "anchors": ["src/geode/geosciences_io/mesh/wl_input.cpp"]}
{"id": "C157", "title": "The header of a GOCAD object only gives its name", "statement": "Loading a surface, point set, curve, well, Voxet, structural model or solid depends on its header only through the name: other entries, their order and the layout of the header change nothing, and the rest of the file is read the same.", "quantifier": "every text, including malformed ones, every two headers with the same name", "why_tests_cant": "a relation between two files with unbounded headers; the test files have one layout", "anchors": ["src/geode/geosciences_io/mesh/gocad_common.cpp"]}
{"id": "C158", "title": "The coordinate system of a GOCAD object only gives the direction of z", "statement": "Loading a surface, point set, curve, well or solid depends on its coordinate system only through the direction of z: its name, projection, datum, axis names and units, and its layout, change nothing to what is loaded or to how loading fails. Hence coordinates in feet are loaded as if they were metres.", "quantifier": "every text, including malformed ones, every two coordinate systems with the same direction of z", "why_tests_cant": "a relation between two files with unbounded sections; the test files have one coordinate system", "anchors": ["src/geode/geosciences_io/mesh/gocad_common.cpp", "src/geode/geosciences_io/mesh/wl_input.cpp"]}
{"id": "C159", "title": "What counts in the properties section of a GOCAD object", "statement": "Of the properties section of a surface, a point set or a solid, only the names, the numbers of values and the values for no data count: the legal ranges, classes, kinds, subclasses, units and the other lines of the section change nothing to what is loaded or to how loading fails, and the order of the lines of the section does not matter. A value outside its legal range, or equal to the value for no data, is not loaded as an ordinary value.", "quantifier": "every text, including malformed ones after the section, every two sections that declare the same properties", "why_tests_cant": "a relation between two files with any number of properties; the test files have one section each", "anchors": ["src/geode/geosciences_io/mesh/gocad_common.cpp"]}
{"id": "C160", "title": "Words at the end of the data lines change nothing", "statement": "A GOCAD file that is loaded is loaded as the same surface, point set, curve or well when words (flags, comments) are added at the end of its data lines.", "quantifier": "every loaded text, any number of data lines, any words added", "why_tests_cant": "a relation between two files with unbounded data; the test files have no such words", "anchors": ["src/geode/geosciences_io/mesh/gocad_common.cpp", "src/geode/geosciences_io/mesh/wl_input.cpp"]}
{"id": "C161", "title": "Lines that are neither vertices nor cells change nothing", "statement": "In the data of a GOCAD surface, point set or curve, lines that are neither vertices, triangles, segments nor the end (parts, border stones, borders, subsets, lines of other kinds) change nothing to the mesh that is loaded, wherever they are.", "quantifier": "every text, including malformed ones, any number of added lines anywhere in the data", "why_tests_cant": "a relation between two files with unbounded data; the test files have one arrangement of parts and borders", "anchors": ["src/geode/geosciences_io/mesh/gocad_common.cpp", "src/geode/geosciences_io/mesh/ts_input.cpp"]}
{"id": "C162", "title": "The order of the triangles of a surface and of the segments of a curve does not matter", "statement": "When a GOCAD surface (or curve) is loaded, the same file with the triangle (or segment) lines in another order is loaded too, with the same name, vertices and attribute values and the same cells, each as many times.", "quantifier": "every text, any number of cells, any permutation of consecutive triangle or segment lines of the first object, whatever follows in the file", "why_tests_cant": "a relation between two files of unbounded size; the tests load one arrangement", "anchors": ["src/geode/geosciences_io/mesh/gocad_common.cpp", "src/geode/geosciences_io/mesh/ts_input.cpp"]}
{"id": "C163", "title": "The region indicators of a solid change nothing", "statement": "In a .lso file, the section of region indicators after the vertices and the one after the tetrahedra, present or not and whatever they contain, change nothing to the structural or stratigraphic model that is loaded.", "quantifier": "every text, including malformed ones, any number of lines in the sections, any vertices, tetrahedra and surfaces around them", "why_tests_cant": "a relation between two files of unbounded size, for every outcome of the loading; no test file has both variants", "anchors": ["src/geode/geosciences_io/model/internal/lso_input.cpp: read_vertex_region_indicators, read_tetrahedra_region_indicators"]}
{"id": "C164", "title": "What counts in the surfaces and regions of a solid", "statement": "In a .lso file, the numbers of the surface parts, their key vertices and the signed surface numbers written after the name of a region change nothing to the structural or stratigraphic model that is loaded: surfaces and regions are related by their triangles and tetrahedra only.", "quantifier": "every text, including malformed ones, any number of surfaces, parts and regions", "why_tests_cant": "a relation between two files of unbounded size, for every outcome of the loading", "anchors": ["src/geode/geosciences_io/model/internal/lso_input.cpp: read_surfaces, read_tfaces, read_triangles, read_blocks"]}
