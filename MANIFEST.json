{
 "claims": [
  {
   "property": "C01",
   "status": "proved",
   "theorems": [
    "C01_flat_tensor_bijection"
   ],
   "note": "all dimensions; 32/64-bit overflow explicit"
  },
  {
   "property": "C02",
   "status": "partial",
   "theorems": [
    "C02_flat_roundtrip_64bit_refuted"
   ],
   "note": "the property is false of the code: witness of 2^32 cells; C01 is the positive part"
  },
  {
   "property": "C03",
   "status": "proved",
   "theorems": [
    "C03_iteration_enumerates_range"
   ],
   "note": "all dimensions"
  },
  {
   "property": "C04",
   "status": "partial",
   "theorems": [
    "C04_empty_range_iteration_refuted",
    "C04_empty_range_iteration_partial"
   ],
   "note": "the property is false; exact condition under which nothing is visited is proved (lower = upper)"
  },
  {
   "property": "C05",
   "status": "partial",
   "theorems": [
    "C05_split_partitions_partial",
    "C05_split_partitions_refuted"
   ],
   "note": "proved under non-negative bounds with lower+upper <= INT_MAX; false (int overflow) otherwise"
  },
  {
   "property": "C06",
   "status": "partial",
   "theorems": [
    "C06_operator_lt_partial",
    "C06_operator_lt_refuted"
   ],
   "note": "strict partial order proved and characterised; weak order and documented order refuted"
  },
  {
   "property": "C07",
   "status": "proved",
   "theorems": [
    "C07_flat_membership"
   ],
   "note": ""
  },
  {
   "property": "C08",
   "status": "proved",
   "theorems": [
    "C08_cells_tile_domain"
   ],
   "note": "reals for doubles"
  },
  {
   "property": "C09",
   "status": "proved",
   "theorems": [
    "C09_get_cell_id_locates"
   ],
   "note": "proved for every tolerance >= 0"
  },
  {
   "property": "C10",
   "status": "partial",
   "theorems": [
    "C10_lowest_neighbour_refuted",
    "C10_highest_neighbour_partial"
   ],
   "note": "documented rule is false; the code returns the highest id (proved for tolerance 0)"
  },
  {
   "property": "C100",
   "status": "partial",
   "theorems": [
    "C100_segment",
    "C100_face_refuted",
    "C100_face_partial"
   ],
   "note": "2D facets: complete, any slope; 3D facets: refuted for a function of slope 4000 (point of the mesh where the function is about 4000), proved when L*M <= 1000"
  },
  {
   "property": "C101",
   "status": "partial",
   "theorems": [
    "C101_general",
    "C101_bezier_partial",
    "C101_bezier_refuted"
   ],
   "note": "proved for general functions and for Bezier polynomials in grids inside the unit box; refuted for Bezier polynomials in other grids (sign of the polynomial that is not rescaled)"
  },
  {
   "property": "C102",
   "status": "partial",
   "theorems": [
    "C102_facets_partial",
    "C102_facets_refuted"
   ],
   "note": "facets where the function has one sign; refuted for Bezier facets in the zero set"
  },
  {
   "property": "C103",
   "status": "proved",
   "theorems": [
    "C103_vtk_files"
   ],
   "note": "a reader of the files finds the mesh"
  },
  {
   "property": "C104",
   "status": "partial",
   "theorems": [
    "C104_blocks_partial",
    "C104_blocks_refuted"
   ],
   "note": "names without directory and absolute names; refuted for relative names with a directory"
  },
  {
   "property": "C105",
   "status": "partial",
   "theorems": [
    "C105_bezier_levelset_partial"
   ],
   "note": "proved in 2D for generic polynomials (layers separated by more than the tolerance), Algoim's root finder and eliminations exact; missing: 3D, non-generic polynomials"
  },
  {
   "property": "C106",
   "status": "partial",
   "theorems": [
    "C106_bezier_region_partial"
   ],
   "note": "as C105; polynomials without zeros in the box must not be positive at the centre (C94 refuted)"
  },
  {
   "property": "C107",
   "status": "proved",
   "theorems": [
    "C107_bezier_cells"
   ],
   "note": "Algoim's root finder and eliminations exact (oracles)"
  },
  {
   "property": "C108",
   "status": "partial",
   "theorems": [
    "C108_faces_partial",
    "C108_faces_refuted"
   ],
   "note": "refuted in 3D (saddle-like function whose mesh stays away from the face x = 0); proved in 2D for the two faces across the direction chosen at the first box"
  },
  {
   "property": "C109",
   "status": "partial",
   "theorems": [
    "C109_vertices_partial",
    "C109_vertices_refuted"
   ],
   "note": "refuted in 3D (vertex (0,1,1) of the unit cube, value -3, while all points of the mesh have x >= 1/2); proved in 2D when the direction is chosen at the first box and the boundary stays away from the two sides in this direction"
  },
  {
   "property": "C11",
   "status": "proved",
   "theorems": [
    "C11_boundary_cells"
   ],
   "note": ""
  },
  {
   "property": "C110",
   "status": "proved",
   "theorems": [
    "C110_orders",
    "C110_inverses"
   ],
   "note": ""
  },
  {
   "property": "C111",
   "status": "partial",
   "theorems": [
    "C111_refuted",
    "C111_all_degrees_refuted",
    "C111_partial"
   ],
   "note": "refuted for hexahedra of every degree >= 2; proved for intervals, quadrilaterals and trilinear hexahedra"
  },
  {
   "property": "C112",
   "status": "proved",
   "theorems": [
    "C112_flat_tensor",
    "C112_corner",
    "C112_face",
    "C112_edge"
   ],
   "note": ""
  },
  {
   "property": "C113",
   "status": "partial",
   "theorems": [
    "C113_refuted",
    "C113_faces_partial",
    "C113_edges_partial",
    "C113_tables_partial",
    "C113_VTK_refuted",
    "C113_VTK_partial",
    "C113_VTK_last_partial"
   ],
   "note": "refuted for edges 4 and 6 of hexahedra (swapped) and the VTK faces of hexahedra; proved for everything else"
  },
  {
   "property": "C114",
   "status": "partial",
   "theorems": [
    "C114_internal_refuted",
    "C114_internal_raises",
    "C114_faces_refuted",
    "C114_internal_partial",
    "C114_faces_partial"
   ],
   "note": "refuted in 3D and for directions with one index; proved otherwise"
  },
  {
   "property": "C115",
   "status": "proved",
   "theorems": [
    "C115_set_operations",
    "C115_find",
    "C115_as_array"
   ],
   "note": ""
  },
  {
   "property": "C116",
   "status": "partial",
   "theorems": [
    "C116_from_ids_partial",
    "C116_all_refuted",
    "C116_interior_refuted",
    "C116_processes_partial"
   ],
   "note": "refuted on every process but the first; proved for ids, for the exterior facets, and on the first process"
  },
  {
   "property": "C117",
   "status": "partial",
   "theorems": [
    "C117_cells_partial",
    "C117_active_cells",
    "C117_empty_refuted",
    "C117_nodes_partial",
    "C117_merged_refuted"
   ],
   "note": "refuted on processes without cells and, with merged nodes, on processes other than 0; proved otherwise"
  },
  {
   "property": "C118",
   "status": "partial",
   "theorems": [
    "C118_merge_partial",
    "C118_coincident_refuted"
   ],
   "note": "refuted when coincidence is not transitive; proved when it is, and the rest always"
  },
  {
   "property": "C119",
   "status": "proved",
   "theorems": [
    "C119_connectivity"
   ],
   "note": "integers are unbounded"
  },
  {
   "property": "C12",
   "status": "proved",
   "theorems": [
    "C12_equispaced_breaks"
   ],
   "note": "exact arithmetic"
  },
  {
   "property": "C120",
   "status": "proved",
   "theorems": [
    "C120_nodes"
   ],
   "note": "exact arithmetic; the unreachable 1D case of the helper is wrong (C120_helper_1D)"
  },
  {
   "property": "C121",
   "status": "partial",
   "theorems": [
    "C121_scalar_refuted",
    "C121_bbox_partial"
   ],
   "note": "scalar ids raise (refuted); arrays of one id right"
  },
  {
   "property": "C122",
   "status": "partial",
   "theorems": [
    "C122_left_face_refuted",
    "C122_facets_partial",
    "C122_tags_partial"
   ],
   "note": "refuted in 2D and 3D except for the last face; cells, order and tags proved relative to get_face_facets"
  },
  {
   "property": "C123",
   "status": "partial",
   "theorems": [
    "C123_never_creates_refuted",
    "C123_constructor_partial"
   ],
   "note": "always raises (refuted); only the arguments and the test of the active cells are modelled"
  },
  {
   "property": "C124",
   "status": "proved",
   "theorems": [
    "C124_cells"
   ],
   "note": ""
  },
  {
   "property": "C125",
   "status": "partial",
   "theorems": [
    "C125_numberings",
    "C125_selection_partial"
   ],
   "note": "interior and all facets on the first process only (C116)"
  },
  {
   "property": "C126",
   "status": "partial",
   "theorems": [
    "C126_exterior_lists",
    "C126_interior_documented",
    "C126_interior_refuted",
    "C126_interior_partial"
   ],
   "note": "exterior integrals proved (first process); interior integrals refuted for non-cut facets on the unfitted boundary"
  },
  {
   "property": "C127",
   "status": "partial",
   "theorems": [
    "C127_order_refuted",
    "C127_order_partial"
   ],
   "note": "refuted for cut facets after empty facets (interior integrals)"
  },
  {
   "property": "C128",
   "status": "proved",
   "theorems": [
    "C128_all_facets"
   ],
   "note": "on the first process (C116)"
  },
  {
   "property": "C129",
   "status": "partial",
   "theorems": [
    "C129_empty_refuted",
    "C129_facet_tags_partial"
   ],
   "note": "refuted with a tag for the empty facets"
  },
  {
   "property": "C13",
   "status": "proved",
   "theorems": [
    "C13_cells_partition",
    "C13_number_of_leaves"
   ],
   "note": "for every behaviour of the sign and classification oracles"
  },
  {
   "property": "C130",
   "status": "proved",
   "theorems": [
    "C130_cell_meshtags"
   ],
   "note": ""
  },
  {
   "property": "C131",
   "status": "proved",
   "theorems": [
    "C131_gauss_points"
   ],
   "note": "exact arithmetic (the code divides in floating point)"
  },
  {
   "property": "C132",
   "status": "proved",
   "theorems": [
    "C132_points_on_grid_lines"
   ],
   "note": "reals for doubles"
  },
  {
   "property": "C133",
   "status": "proved",
   "theorems": [
    "C133_kept_boundary_points"
   ],
   "note": "the nodes of the library are an oracle"
  },
  {
   "property": "C134",
   "status": "proved",
   "theorems": [
    "C134_bezier_cell_rule"
   ],
   "note": "the nodes of the library and the restricted polynomial are oracles"
  },
  {
   "property": "C135",
   "status": "proved",
   "theorems": [
    "C135_packed_entities"
   ],
   "note": "the quadratures, cut and empty lists, basix tables and the DOLFINx layout of coefficients are parameters; argsort is any stable sort; numbers are reals"
  },
  {
   "property": "C136",
   "status": "proved",
   "theorems": [
    "C136_updates_keep_quadratures"
   ],
   "note": "as C135"
  },
  {
   "property": "C137",
   "status": "partial",
   "theorems": [
    "C137_interior_facets_partial",
    "C137_interior_facets_refuted"
   ],
   "note": "refuted: the index of an empty facet is used as row of its offset; proved without empty facets"
  },
  {
   "property": "C138",
   "status": "partial",
   "theorems": [
    "C138_interior_coefficients_refuted"
   ],
   "note": "refuted for every integral with coefficients"
  },
  {
   "property": "C139",
   "status": "partial",
   "theorems": [
    "C139_offset_position",
    "C139_offset_position_interior_refuted"
   ],
   "note": "proved over cells and exterior facets; refuted over interior facets with two coefficients"
  },
  {
   "property": "C14",
   "status": "proved",
   "theorems": [
    "C14_queries_agree"
   ],
   "note": ""
  },
  {
   "property": "C140",
   "status": "proved",
   "theorems": [
    "C140_facet_points",
    "C140_facet_vertices",
    "C140_facet_points_distinct"
   ],
   "note": "vertices and facets of basix' reference cells are transcribed"
  },
  {
   "property": "C141",
   "status": "partial",
   "theorems": [
    "C141_facet_symmetries_partial",
    "C141_facet_symmetries_refuted",
    "C141_symmetries_distinct"
   ],
   "note": "refuted: symmetries 6 and 7 of quadrilaterals raise; all others proved"
  },
  {
   "property": "C142",
   "status": "proved",
   "theorems": [
    "C142_kernel_sum"
   ],
   "note": "the two-sides and one-point conditions are in the statement (see C144, C145)"
  },
  {
   "property": "C143",
   "status": "partial",
   "theorems": [
    "C143_several_quadratures_partial",
    "C143_several_quadratures_refuted"
   ],
   "note": "refuted: the first loop reads the tables of the second quadrature; proved for the loops of the last quadrature with varying tables"
  },
  {
   "property": "C144",
   "status": "partial",
   "theorems": [
    "C144_second_side_partial",
    "C144_second_side_refuted"
   ],
   "note": "refuted for static rules of one point; proved for permuted tables"
  },
  {
   "property": "C145",
   "status": "partial",
   "theorems": [
    "C145_one_point_rule_partial",
    "C145_one_point_rule_refuted"
   ],
   "note": "refuted for static rules of one point; proved for two points or more"
  },
  {
   "property": "C146",
   "status": "proved",
   "theorems": [
    "C146_registry",
    "C146_errors"
   ],
   "note": ""
  },
  {
   "property": "C147",
   "status": "proved",
   "theorems": [
    "C147_component_of_element"
   ],
   "note": ""
  },
  {
   "property": "C148",
   "status": "partial",
   "theorems": [
    "C148_degree_of_integral_partial",
    "C148_degree_of_integral_refuted"
   ],
   "note": "refuted: all unfitted-boundary integrals get the last degree; proved when integrals with the same static rule have the same degree"
  },
  {
   "property": "C149",
   "status": "proved",
   "theorems": [
    "C149_cut_entity_assembly"
   ],
   "note": "conditions of C142"
  },
  {
   "property": "C15",
   "status": "proved",
   "theorems": [
    "C15_target_lists"
   ],
   "note": ""
  },
  {
   "property": "C150",
   "status": "partial",
   "theorems": [
    "C150_shipped_ranges_partial",
    "C150_accepted_partial",
    "C150_range_refuted",
    "C150_suffix_refuted"
   ],
   "note": "ranges [X.Y.0, X.(Y+1).0), as shipped, are checked exactly; refuted for other ranges and for versions with a suffix"
  },
  {
   "property": "C151",
   "status": "partial",
   "theorems": [
    "C151_single_form_partial",
    "C151_lists_refuted"
   ],
   "note": "refuted for lists (always the empty list); single and empty forms behave as documented"
  },
  {
   "property": "C152",
   "status": "partial",
   "theorems": [
    "C152_regions_partial",
    "C152_tuple_refuted",
    "C152_raises_refuted"
   ],
   "note": "proved when ids in tuples are not above the single ids of exterior integrals; refuted otherwise"
  },
  {
   "property": "C153",
   "status": "partial",
   "theorems": [
    "C153_form_after_partial",
    "C153_data_refuted",
    "C153_raising_refuted",
    "C153_other_forms_refuted"
   ],
   "note": "what exactly changes is proved for a successful call; refuted as stated"
  },
  {
   "property": "C154",
   "status": "partial",
   "theorems": [
    "C154_single_forms_partial",
    "C154_lists_refuted"
   ],
   "note": "proved for a residual form and a Jacobian form; refuted for lists of forms"
  },
  {
   "property": "C155",
   "status": "partial",
   "theorems": [
    "C155_linker_variable_partial",
    "C155_two_token_options_refuted"
   ],
   "note": "the variable is always restored and has the tokens without repetitions; refuted for options of two tokens"
  },
  {
   "property": "C156",
   "status": "proved",
   "theorems": [
    "C156_nanson_2d",
    "C156_nanson_3d",
    "C156_nanson_manifold",
    "C156_curve_integral"
   ],
   "note": "pointwise in the plane, in space and for surfaces; as an equality of integrals for curves in the plane"
  },
  {
   "property": "C157",
   "status": "partial",
   "theorems": [
    "C157_single_id_partial",
    "C157_call_partial",
    "C157_tuple_refuted"
   ],
   "note": "proved for single ids (cells in the plane); refuted for tuples (UFL's branch for tuples is modelled from UFL's source, which is not in the repository)"
  },
  {
   "property": "C158",
   "status": "partial",
   "theorems": [
    "C158_disk",
    "C158_sphere",
    "C158_annulus",
    "C158_cylinder",
    "C158_torus",
    "C158_plane",
    "C158_line",
    "C158_ellipse",
    "C158_ellipsoid",
    "C158_ellipsoid_rejects",
    "C158_constant",
    "C158_box_partial",
    "C158_box_refuted",
    "C158_square_binding_partial",
    "C158_dim_linear",
    "C158_tpms"
   ],
   "note": "proved for every constructor except create_box with a transformation, which always raises (refuted)"
  },
  {
   "property": "C159",
   "status": "proved",
   "theorems": [
    "C159_negative",
    "C159_sum",
    "C159_transformed",
    "C159_eval"
   ],
   "note": "over all functions that a program can make"
  },
  {
   "property": "C16",
   "status": "proved",
   "theorems": [
    "C16_subdivision_sound",
    "C16_every_cell"
   ],
   "note": "C16_every_cell is a complete description of the constructed domain"
  },
  {
   "property": "C160",
   "status": "proved",
   "theorems": [
    "C160_brackets",
    "C160_parse",
    "C160_total",
    "C160_rename"
   ],
   "note": "regular expressions as greedy backtracking matching over ASCII characters; the names of the quadratures' data are not looked up"
  },
  {
   "property": "C161",
   "status": "proved",
   "theorems": [
    "C161_bounds",
    "C161_normals",
    "C161_determined",
    "C161_original",
    "C161_custom"
   ],
   "note": "the passes named in the anchors; erase_static_declarations is C180, rewrite_table_accesses is C182"
  },
  {
   "property": "C162",
   "status": "partial",
   "theorems": [
    "C162_contiguous",
    "C162_calls",
    "C162_queries",
    "C162_step",
    "C162_slices_refuted",
    "C162_eval"
   ],
   "note": "proved for contiguous arrays; refuted for slices with a step (C162_step: exactly those)"
  },
  {
   "property": "C163",
   "status": "partial",
   "theorems": [
    "C163_readable",
    "C163_domain",
    "C163_domain_made",
    "C163_no_leak",
    "C163_mid_point_refuted"
   ],
   "note": "refuted for BoundBox.mid_point, proved for everything else"
  },
  {
   "property": "C164",
   "status": "proved",
   "theorems": [
    "C164_unfitted_mesh"
   ],
   "note": "cells handed out by DOLFINx: any distribution in which every row is owned once"
  },
  {
   "property": "C165",
   "status": "partial",
   "theorems": [
    "C165_active_cells_partial",
    "C165_parallel_refuted"
   ],
   "note": "refuted on processes other than 0 for all the cells in another order; proved otherwise"
  },
  {
   "property": "C166",
   "status": "proved",
   "theorems": [
    "C166_arguments"
   ],
   "note": "real numbers for floating point (linspace)"
  },
  {
   "property": "C167",
   "status": "proved",
   "theorems": [
    "C167_create_mesh",
    "C167_degree"
   ],
   "note": ""
  },
  {
   "property": "C168",
   "status": "partial",
   "theorems": [
    "C168_geometry_partial",
    "C168_geometry_refuted"
   ],
   "note": "proved for degrees 1 and 2; refuted for degree 3, the default (GLL nodes of the element, equispaced points)"
  },
  {
   "property": "C169",
   "status": "partial",
   "theorems": [
    "C169_serial_partial",
    "C169_parallel_refuted"
   ],
   "note": "proved on one process; refuted for more (every process gives the whole reparameterization)"
  },
  {
   "property": "C17",
   "status": "proved",
   "theorems": [
    "C17_terminates_bounded"
   ],
   "note": ""
  },
  {
   "property": "C170",
   "status": "partial",
   "theorems": [
    "C170_shim_partial",
    "C170_fast_path_refuted",
    "C170_kill_refuted"
   ],
   "note": "refuted for calls that come during a build and after a kill; proved for calls that go through the lock when nobody is killed, and mutual exclusion, stability, progress and termination always"
  },
  {
   "property": "C171",
   "status": "partial",
   "theorems": [
    "C171_cache_partial",
    "C171_killed_refuted",
    "C171_failed_refuted"
   ],
   "note": "a call that returns has the complete module, always; refuted: calls after a kill or an interruption never return one; those waiting for a failing one time out"
  },
  {
   "property": "C172",
   "status": "proved",
   "theorems": [
    "C172_sessions",
    "C172_flags"
   ],
   "note": "hashes of distinct elements distinct"
  },
  {
   "property": "C173",
   "status": "proved",
   "theorems": [
    "C173_cells",
    "C173_facets"
   ],
   "note": ""
  },
  {
   "property": "C174",
   "status": "partial",
   "theorems": [
    "C174_cpp_domains",
    "C174_python_partial",
    "C174_python_refuted"
   ],
   "note": "proved for C++ domains and for meshes whose cells DOLFINx did not renumber; refuted for every other mesh"
  },
  {
   "property": "C175",
   "status": "partial",
   "theorems": [
    "C175_cpp_refuted",
    "C175_python_refuted",
    "C175_python_partial"
   ],
   "note": "refuted for C++ domains (always raises) and for every facet but the last of a cell; proved: one facet per facet of the list on its cell with its status"
  },
  {
   "property": "C176",
   "status": "proved",
   "theorems": [
    "C176_position_data"
   ],
   "note": "one form per module, as compile_forms does"
  },
  {
   "property": "C177",
   "status": "partial",
   "theorems": [
    "C177_after_import_partial",
    "C177_idempotent",
    "C177_other_versions",
    "C177_early_import_refuted"
   ],
   "note": "refuted for names bound before qugar.dolfinx is imported"
  },
  {
   "property": "C178",
   "status": "proved",
   "theorems": [
    "C178_reparam_picture"
   ],
   "note": "objects of the C++ library; those made by create_reparam_mesh are drawn by DOLFINx"
  },
  {
   "property": "C179",
   "status": "partial",
   "theorems": [
    "C179_accepted",
    "C179_one_side_refuted"
   ],
   "note": "exact characterisation of what is accepted; refuted: integrals over interior facets of one side only are rejected"
  },
  {
   "property": "C18",
   "status": "partial",
   "theorems": [
    "C18_target_cells_refuted",
    "C18_target_cells_partial"
   ],
   "note": "false of the code: a conclusive sign test aborts (insert_cells asserts no targets); proved when every sign test is inconclusive"
  },
  {
   "property": "C180",
   "status": "proved",
   "theorems": [
    "C180_erased",
    "C180_no_table_left"
   ],
   "note": "every text of the loops"
  },
  {
   "property": "C181",
   "status": "partial",
   "theorems": [
    "C181_text",
    "C181_subscript_partial",
    "C181_subscript_refuted"
   ],
   "note": "text of the access exactly; refuted: with both subscripts 0 the text is name[], not C"
  },
  {
   "property": "C182",
   "status": "proved",
   "theorems": [
    "C182_rewritten",
    "C182_kernel"
   ],
   "note": "texts of accesses with texts without FE between them (FFCx's form)"
  },
  {
   "property": "C19",
   "status": "partial",
   "theorems": [
    "C19_leaf_status_refuted",
    "C19_leaf_status_partial"
   ],
   "note": "false of the code: get_status asserts that the node has children"
  },
  {
   "property": "C20",
   "status": "proved",
   "theorems": [
    "C20_facet_lists_agree",
    "C20_statuses",
    "C20_some_unfitted_facet"
   ],
   "note": ""
  },
  {
   "property": "C21",
   "status": "proved",
   "theorems": [
    "C21_target_facet_lists"
   ],
   "note": ""
  },
  {
   "property": "C22",
   "status": "partial",
   "theorems": [
    "C22_facet_kinds_refuted",
    "C22_facet_kinds_partial"
   ],
   "note": "false for facets whose stored status is unf_bdry or unf_bdry_ext_bdry: exact condition proved"
  },
  {
   "property": "C23",
   "status": "proved",
   "theorems": [
    "C23_unfitted_boundary_cells"
   ],
   "note": ""
  },
  {
   "property": "C24",
   "status": "proved",
   "theorems": [
    "C24_facet_from_samples",
    "C24_cell_from_samples"
   ],
   "note": "the sampled rule (algoim) is an arbitrary list"
  },
  {
   "property": "C25",
   "status": "proved",
   "theorems": [
    "C25_facet_ids",
    "C25_edge_ids"
   ],
   "note": ""
  },
  {
   "property": "C26",
   "status": "proved",
   "theorems": [
    "C26_cell_quadratures"
   ],
   "note": "the cut-cell rule is Algoim's, an oracle"
  },
  {
   "property": "C27",
   "status": "proved",
   "theorems": [
    "C27_facet_quadratures",
    "C27_unfitted_quadratures",
    "C27_unfitted_total"
   ],
   "note": "slices of facet and unfitted-boundary quadratures"
  },
  {
   "property": "C28",
   "status": "proved",
   "theorems": [
    "C28_erase_facet_points",
    "C28_erase_boundary_points"
   ],
   "note": ""
  },
  {
   "property": "C29",
   "status": "proved",
   "theorems": [
    "C29_interior_exterior",
    "C29_facet_content"
   ],
   "note": ""
  },
  {
   "property": "C30",
   "status": "partial",
   "theorems": [
    "C30_unfitted_facets_refuted",
    "C30_unfitted_facets_partial"
   ],
   "note": "false as stated: the exterior quadrature asserts for facets whose only status is unfitted boundary; the partial theorem shows it aborts only there"
  },
  {
   "property": "C31",
   "status": "proved",
   "theorems": [
    "C31_no_leak"
   ],
   "note": ""
  },
  {
   "property": "C32",
   "status": "proved",
   "theorems": [
    "C32_table_positions",
    "C32_table_used"
   ],
   "note": ""
  },
  {
   "property": "C33",
   "status": "partial",
   "theorems": [
    "C33_tensor_1d",
    "C33_tensor_2d",
    "C33_tensor_3d_refuted",
    "C33_tensor_3d_partial",
    "C33_scale_weights"
   ],
   "note": "1D and 2D fully proved; false in 3D (the code scales with max instead of length and does not shift), true there for boxes at the origin"
  },
  {
   "property": "C34",
   "status": "proved",
   "theorems": [
    "C34_box_scaling"
   ],
   "note": ""
  },
  {
   "property": "C35",
   "status": "proved",
   "theorems": [
    "C35_box_extend"
   ],
   "note": ""
  },
  {
   "property": "C36",
   "status": "proved",
   "theorems": [
    "C36_compose",
    "C36_inverse",
    "C36_inverse_domain"
   ],
   "note": ""
  },
  {
   "property": "C37",
   "status": "proved",
   "theorems": [
    "C37_chain_rule"
   ],
   "note": ""
  },
  {
   "property": "C38",
   "status": "partial",
   "theorems": [
    "C38_around_axis_refuted",
    "C38_around_axis_partial"
   ],
   "note": "false for axes along x: the second vector is zero; proved when the angle with x is above 1e-4"
  },
  {
   "property": "C39",
   "status": "proved",
   "theorems": [
    "C39_axis_1d",
    "C39_axis_2d",
    "C39_axis_3d",
    "C39_axes_3d",
    "C39_cartesian",
    "C39_is_cartesian",
    "C39_cartesian_axes"
   ],
   "note": ""
  },
  {
   "property": "C40",
   "status": "proved",
   "theorems": [
    "C40_tolerant_comparisons",
    "C40_relative_comparisons"
   ],
   "note": ""
  },
  {
   "property": "C41",
   "status": "proved",
   "theorems": [
    "C41_unique_clusters"
   ],
   "note": ""
  },
  {
   "property": "C42",
   "status": "proved",
   "theorems": [
    "C42_merge_points_map"
   ],
   "note": "for every sorting routine (the order of ties is unspecified)"
  },
  {
   "property": "C43",
   "status": "partial",
   "theorems": [
    "C43_merge_only_coincident_refuted",
    "C43_merge_only_coincident_partial"
   ],
   "note": "false for chains of near points; proved: spread at most (n-1) tolerances, and exact when proximity is transitive"
  },
  {
   "property": "C44",
   "status": "proved",
   "theorems": [
    "C44_mesh_histories_valid"
   ],
   "note": "every history of the modelled operations; the cells allocated by allocate_cells must have been filled"
  },
  {
   "property": "C45",
   "status": "proved",
   "theorems": [
    "C45_full_cell"
   ],
   "note": "algoim's Chebyshev nodes (order >= 7) are an arbitrary function"
  },
  {
   "property": "C46",
   "status": "proved",
   "theorems": [
    "C46_merge_meshes"
   ],
   "note": ""
  },
  {
   "property": "C47",
   "status": "proved",
   "theorems": [
    "C47_vtu_mask",
    "C47_vtu_connectivity"
   ],
   "note": "the whole VTK ordering, not only the vertices"
  },
  {
   "property": "C48",
   "status": "proved",
   "theorems": [
    "C48_permute_cell",
    "C48_orientation_reversed"
   ],
   "note": "the second theorem: the map of the flipped cell and the sign of its Jacobian, any order and nodes"
  },
  {
   "property": "C49",
   "status": "partial",
   "theorems": [
    "C49_orient_cells_partial",
    "C49_orient_all_partial",
    "C49_range_partial",
    "C49_mesh_nodes_partial",
    "C49_indeterminate_refuted",
    "C49_nodes_refuted"
   ],
   "note": "false as stated: the Jacobian accumulates on default-constructed (uninitialised) points, and Chebyshev nodes are used for meshes with equispaced nodes (order 4 counterexample); proved for zero-initialised points and the nodes used"
  },
  {
   "property": "C50",
   "status": "partial",
   "theorems": [
    "C50_one_copy_refuted",
    "C50_one_copy_partial"
   ],
   "note": "false for closed edges symmetric at the ends only (order >= 6); proved: no edge lost or invented, none listed twice, an edge and its reversal both kept only in that case"
  },
  {
   "property": "C51",
   "status": "proved",
   "theorems": [
    "C51_edge_points",
    "C51_edges_share_ends"
   ],
   "note": ""
  },
  {
   "property": "C52",
   "status": "proved",
   "theorems": [
    "C52_bernstein_basis"
   ],
   "note": ""
  },
  {
   "property": "C53",
   "status": "proved",
   "theorems": [
    "C53_casteljau"
   ],
   "note": ""
  },
  {
   "property": "C54",
   "status": "proved",
   "theorems": [
    "C54_sign"
   ],
   "note": ""
  },
  {
   "property": "C55",
   "status": "proved",
   "theorems": [
    "C55_bezier_gradient"
   ],
   "note": ""
  },
  {
   "property": "C56",
   "status": "proved",
   "theorems": [
    "C56_arithmetic"
   ],
   "note": ""
  },
  {
   "property": "C57",
   "status": "proved",
   "theorems": [
    "C57_bezier_facet"
   ],
   "note": ""
  },
  {
   "property": "C58",
   "status": "partial",
   "theorems": [
    "C58_monomial_value",
    "C58_monomial_gradient_refuted",
    "C58_monomial_gradient_partial"
   ],
   "note": "values proved; gradients false when an order is 1 and the dimension is above 1"
  },
  {
   "property": "C59",
   "status": "proved",
   "theorems": [
    "C59_derivative"
   ],
   "note": ""
  },
  {
   "property": "C60",
   "status": "partial",
   "theorems": [
    "C60_monomial_facet_refuted",
    "C60_monomial_facet_partial"
   ],
   "note": "false on the facets at 1 (only the leading coefficients are kept)"
  },
  {
   "property": "C61",
   "status": "proved",
   "theorems": [
    "C61_mono_to_bezier"
   ],
   "note": ""
  },
  {
   "property": "C62",
   "status": "partial",
   "theorems": [
    "C62_basis_1D_partial",
    "C62_order_partial",
    "C62_tensor_partial",
    "C62_flag_refuted"
   ],
   "note": "interpolation, partition of unity and derivatives proved for any distinct nodes and order; the chebyshev flag is inverted"
  },
  {
   "property": "C63",
   "status": "partial",
   "theorems": [
    "C63_gradients_partial",
    "C63_annulus_refuted",
    "C63_annulus_partial"
   ],
   "note": "all primitives but the annulus, whose gradient is wrong at every point but the center"
  },
  {
   "property": "C64",
   "status": "partial",
   "theorems": [
    "C64_hessians_partial",
    "C64_cylinder_refuted",
    "C64_annulus_refuted",
    "C64_trilinear_refuted"
   ],
   "note": "false for cylinder and annulus (everywhere) and the (y,z) entry of the trilinear function; proved for the rest"
  },
  {
   "property": "C65",
   "status": "partial",
   "theorems": [
    "C65_sphere",
    "C65_annulus",
    "C65_ellipsoid",
    "C65_constant",
    "C65_cylinder_partial",
    "C65_torus_partial",
    "C65_plane_partial",
    "C65_plane_refuted",
    "C65_short_axis_refuted"
   ],
   "note": "false for planes with a non-unit normal and for cylinders and tori with a very short axis; true otherwise"
  },
  {
   "property": "C66",
   "status": "partial",
   "theorems": [
    "C66_periodic",
    "C66_values",
    "C66_section",
    "C66_gradients_partial",
    "C66_hessians_partial",
    "C66_iwp_gradient_refuted",
    "C66_schoen_hessian_refuted"
   ],
   "note": "periodicity proved; SchoenIWP gradient false when the first two parameters differ; (x,z) entry of the 3D Schoen Hessian false"
  },
  {
   "property": "C67",
   "status": "proved",
   "theorems": [
    "C67_algebra"
   ],
   "note": ""
  },
  {
   "property": "C68",
   "status": "proved",
   "theorems": [
    "C68_square",
    "C68_multilinear"
   ],
   "note": ""
  },
  {
   "property": "C69",
   "status": "proved",
   "theorems": [
    "C69_adjust_roots"
   ],
   "note": ""
  },
  {
   "property": "C70",
   "status": "partial",
   "theorems": [
    "C70_near_roots_refuted",
    "C70_near_roots_partial"
   ],
   "note": "false for chains of near roots (an already moved root is compared with its old value); true without chains"
  },
  {
   "property": "C71",
   "status": "partial",
   "theorems": [
    "C71_reference_roots_refuted",
    "C71_reference_roots_partial"
   ],
   "note": "false: reads at position psi_id instead of i"
  },
  {
   "property": "C72",
   "status": "proved",
   "theorems": [
    "C72_prune"
   ],
   "note": ""
  },
  {
   "property": "C73",
   "status": "partial",
   "theorems": [
    "C73_full_cell_refuted",
    "C73_full_cell_partial"
   ],
   "note": "false: the tolerance is absolute, so cells of volume below 10 eps are always empty; proved above twice the tolerance"
  },
  {
   "property": "C74",
   "status": "proved",
   "theorems": [
    "C74_cell_rule",
    "C74_facet_rule",
    "C74_surface_rule"
   ],
   "note": ""
  },
  {
   "property": "C75",
   "status": "partial",
   "theorems": [
    "C75_external_points_refuted",
    "C75_external_points_partial"
   ],
   "note": "false for facets with external but no unfitted boundary pieces"
  },
  {
   "property": "C76",
   "status": "partial",
   "theorems": [
    "C76_indeterminate_refuted",
    "C76_facet_normals_partial"
   ],
   "note": "refuted: the other components of the normal are those of a default-constructed (uninitialised) point; proved when they are zero"
  },
  {
   "property": "C77",
   "status": "proved",
   "theorems": [
    "C77_scale_map",
    "C77_axes_map_2d",
    "C77_axes_map_3d"
   ],
   "note": ""
  },
  {
   "property": "C78",
   "status": "proved",
   "theorems": [
    "C78_solids"
   ],
   "note": ""
  },
  {
   "property": "C79",
   "status": "proved",
   "theorems": [
    "C79_wirebasket"
   ],
   "note": "the two point checks are arbitrary predicates"
  },
  {
   "property": "C80",
   "status": "proved",
   "theorems": [
    "C80_hessians"
   ],
   "note": ""
  },
  {
   "property": "C81",
   "status": "proved",
   "theorems": [
    "C81_composition"
   ],
   "note": ""
  },
  {
   "property": "C82",
   "status": "proved",
   "theorems": [
    "C82_image_transforms"
   ],
   "note": ""
  },
  {
   "property": "C83",
   "status": "partial",
   "theorems": [
    "C83_levelset_partial",
    "C83_facet_partial",
    "C83_facet_id_partial",
    "C83_indeterminate_refuted",
    "C83_empty_refuted"
   ],
   "note": "refuted: the normal starts from default-constructed (uninitialised) points, and an empty list of functions is undefined behaviour; proved if default-constructed points were zero, for the nodes used by the code"
  },
  {
   "property": "C84",
   "status": "proved",
   "theorems": [
    "C84_scale_points"
   ],
   "note": ""
  },
  {
   "property": "C85",
   "status": "proved",
   "theorems": [
    "C85_region",
    "C85_boxes"
   ],
   "note": "for boxes with sides above 2^32 default tolerances (about 1e-5); with a level set unused points may be left in the mesh"
  },
  {
   "property": "C86",
   "status": "proved",
   "theorems": [
    "C86_facet",
    "C86_facet_id"
   ],
   "note": "same hypotheses as C85"
  },
  {
   "property": "C87",
   "status": "partial",
   "theorems": [
    "C87_region_partial",
    "C87_levelset_partial",
    "C87_facet_partial"
   ],
   "note": "proved if default-constructed points were zero, for the interpolation at the nodes used by the code; refuted otherwise for the functions it calls (C49_indeterminate_refuted, C83_indeterminate_refuted)"
  },
  {
   "property": "C88",
   "status": "proved",
   "theorems": [
    "C88_nothing",
    "C88_whole_box"
   ],
   "note": ""
  },
  {
   "property": "C89",
   "status": "proved",
   "theorems": [
    "C89_unmerged",
    "C89_all_cells",
    "C89_order"
   ],
   "note": "non-Bezier function; cells with sides above 2^32 default tolerances (about 1e-5)"
  },
  {
   "property": "C90",
   "status": "proved",
   "theorems": [
    "C90_merged"
   ],
   "note": "same hypotheses as C89"
  },
  {
   "property": "C91",
   "status": "partial",
   "theorems": [
    "C91_gauss_shape",
    "C91_gauss_exact_1d",
    "C91_gauss_exact_2d",
    "C91_gauss_exact_3d_partial",
    "C91_gauss_3d_refuted"
   ],
   "note": "in 3D proved for boxes with the minimum corner at the origin and refuted for others (the box [1,2]^3; see C33); literals taken as exact decimals"
  },
  {
   "property": "C92",
   "status": "partial",
   "theorems": [
    "C92_tanh_sinh_shape",
    "C92_tanh_sinh_affine_1d",
    "C92_tanh_sinh_affine_2d",
    "C92_tanh_sinh_affine_3d_partial",
    "C92_tanh_sinh_3d_refuted"
   ],
   "note": "as C91"
  },
  {
   "property": "C93",
   "status": "proved",
   "theorems": [
    "C93_full_cell_2d",
    "C93_full_cell_3d"
   ],
   "note": ""
  },
  {
   "property": "C94",
   "status": "partial",
   "theorems": [
    "C94_no_zero_partial",
    "C94_positive_refuted"
   ],
   "note": "a positive polynomial is given a full cell (refuted); the rest proved"
  },
  {
   "property": "C95",
   "status": "proved",
   "theorems": [
    "C95_bezier_region"
   ],
   "note": "Algoim's masks, eliminations and root finder are oracles; roots in [0,1], height direction in range"
  },
  {
   "property": "C96",
   "status": "partial",
   "theorems": [
    "C96_bezier_returns_partial",
    "C96_bezier_ub_refuted"
   ],
   "note": "undefined behaviour over a tensor-product base (refuted); proved: never throws, returns when the number of interior roots is constant over that base"
  },
  {
   "property": "C97",
   "status": "partial",
   "theorems": [
    "C97_bezier_domain_partial"
   ],
   "note": "never throws; returned meshes characterised; normal termination only for steady polynomials (C96 refuted)"
  },
  {
   "property": "C98",
   "status": "partial",
   "theorems": [
    "C98_levelset_partial",
    "C98_levelset_refuted"
   ],
   "note": "refuted for steep functions (a point at distance of order 1 from the level set); proved in 2D when L*M <= 1000 (L the Lipschitz constant, M the size); 3D open"
  },
  {
   "property": "C99",
   "status": "partial",
   "theorems": [
    "C99_region_partial",
    "C99_region_refuted"
   ],
   "note": "as C98; proved in 2D when L*M <= 1000; 3D open"
  }
 ]
}
