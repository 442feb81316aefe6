C01 | proved | C01_flat_tensor_bijection | all dimensions; 32/64-bit overflow explicit
C02 | partial | C02_flat_roundtrip_64bit_refuted | the property is false of the code: witness of 2^32 cells; C01 is the positive part
C03 | proved | C03_iteration_enumerates_range | all dimensions
C04 | partial | C04_empty_range_iteration_refuted, C04_empty_range_iteration_partial | the property is false; exact condition under which nothing is visited is proved (lower = upper)
C05 | partial | C05_split_partitions_partial, C05_split_partitions_refuted | proved under non-negative bounds with lower+upper <= INT_MAX; false (int overflow) otherwise
C06 | partial | C06_operator_lt_partial, C06_operator_lt_refuted | strict partial order proved and characterised; weak order and documented order refuted
C07 | proved | C07_flat_membership |
C08 | proved | C08_cells_tile_domain | reals for doubles
C09 | proved | C09_get_cell_id_locates | proved for every tolerance >= 0
C10 | partial | C10_lowest_neighbour_refuted, C10_highest_neighbour_partial | documented rule is false; the code returns the highest id (proved for tolerance 0)
C100 | partial | C100_segment, C100_face_refuted, C100_face_partial | 2D facets: complete, any slope; 3D facets: refuted for a function of slope 4000 (point of the mesh where the function is about 4000), proved when L*M <= 1000
C101 | partial | C101_general, C101_bezier_partial, C101_bezier_refuted | proved for general functions and for Bezier polynomials in grids inside the unit box; refuted for Bezier polynomials in other grids (sign of the polynomial that is not rescaled)
C102 | partial | C102_facets_partial, C102_facets_refuted | facets where the function has one sign; refuted for Bezier facets in the zero set
C103 | proved | C103_vtk_files | a reader of the files finds the mesh
C104 | partial | C104_blocks_partial, C104_blocks_refuted | names without directory and absolute names; refuted for relative names with a directory
C105 | partial | C105_bezier_levelset_partial | proved in 2D for generic polynomials (layers separated by more than the tolerance), Algoim's root finder and eliminations exact; missing: 3D, non-generic polynomials
C106 | partial | C106_bezier_region_partial | as C105; polynomials without zeros in the box must not be positive at the centre (C94 refuted)
C107 | proved | C107_bezier_cells | Algoim's root finder and eliminations exact (oracles)
C108 | partial | C108_faces_partial, C108_faces_refuted | refuted in 3D (saddle-like function whose mesh stays away from the face x = 0); proved in 2D for the two faces across the direction chosen at the first box
C109 | partial | C109_vertices_partial, C109_vertices_refuted | refuted in 3D (vertex (0,1,1) of the unit cube, value -3, while all points of the mesh have x >= 1/2); proved in 2D when the direction is chosen at the first box and the boundary stays away from the two sides in this direction
C11 | proved | C11_boundary_cells |
C110 | proved | C110_orders, C110_inverses |
C111 | partial | C111_refuted, C111_all_degrees_refuted, C111_partial | refuted for hexahedra of every degree >= 2; proved for intervals, quadrilaterals and trilinear hexahedra
C112 | proved | C112_flat_tensor, C112_corner, C112_face, C112_edge |
C113 | partial | C113_refuted, C113_faces_partial, C113_edges_partial, C113_tables_partial, C113_VTK_refuted, C113_VTK_partial, C113_VTK_last_partial | refuted for edges 4 and 6 of hexahedra (swapped) and the VTK faces of hexahedra; proved for everything else
C114 | partial | C114_internal_refuted, C114_internal_raises, C114_faces_refuted, C114_internal_partial, C114_faces_partial | refuted in 3D and for directions with one index; proved otherwise
C115 | proved | C115_set_operations, C115_find, C115_as_array |
C116 | partial | C116_from_ids_partial, C116_all_refuted, C116_interior_refuted, C116_processes_partial | refuted on every process but the first; proved for ids, for the exterior facets, and on the first process
C117 | partial | C117_cells_partial, C117_active_cells, C117_empty_refuted, C117_nodes_partial, C117_merged_refuted | refuted on processes without cells and, with merged nodes, on processes other than 0; proved otherwise
C118 | partial | C118_merge_partial, C118_coincident_refuted | refuted when coincidence is not transitive; proved when it is, and the rest always
C119 | proved | C119_connectivity | integers are unbounded
C12 | proved | C12_equispaced_breaks | exact arithmetic
C120 | proved | C120_nodes | exact arithmetic; the unreachable 1D case of the helper is wrong (C120_helper_1D)
C121 | partial | C121_scalar_refuted, C121_bbox_partial | scalar ids raise (refuted); arrays of one id right
C122 | partial | C122_left_face_refuted, C122_facets_partial, C122_tags_partial | refuted in 2D and 3D except for the last face; cells, order and tags proved relative to get_face_facets
C123 | partial | C123_never_creates_refuted, C123_constructor_partial | always raises (refuted); only the arguments and the test of the active cells are modelled
C124 | proved | C124_cells | 
C125 | partial | C125_numberings, C125_selection_partial | interior and all facets on the first process only (C116)
C126 | partial | C126_exterior_lists, C126_interior_documented, C126_interior_refuted, C126_interior_partial | exterior integrals proved (first process); interior integrals refuted for non-cut facets on the unfitted boundary
C127 | partial | C127_order_refuted, C127_order_partial | refuted for cut facets after empty facets (interior integrals)
C128 | proved | C128_all_facets | on the first process (C116)
C129 | partial | C129_empty_refuted, C129_facet_tags_partial | refuted with a tag for the empty facets
C13 | proved | C13_cells_partition, C13_number_of_leaves | for every behaviour of the sign and classification oracles
C130 | proved | C130_cell_meshtags | 
C131 | proved | C131_gauss_points | exact arithmetic (the code divides in floating point)
C132 | proved | C132_points_on_grid_lines | reals for doubles
C133 | proved | C133_kept_boundary_points | the nodes of the library are an oracle
C134 | proved | C134_bezier_cell_rule | the nodes of the library and the restricted polynomial are oracles
C135 | proved | C135_packed_entities | the quadratures, cut and empty lists, basix tables and the DOLFINx layout of coefficients are parameters; argsort is any stable sort; numbers are reals
C136 | proved | C136_updates_keep_quadratures | as C135
C137 | partial | C137_interior_facets_partial, C137_interior_facets_refuted | refuted: the index of an empty facet is used as row of its offset; proved without empty facets
C138 | partial | C138_interior_coefficients_refuted | refuted for every integral with coefficients
C139 | partial | C139_offset_position, C139_offset_position_interior_refuted | proved over cells and exterior facets; refuted over interior facets with two coefficients
C14 | proved | C14_queries_agree |
C140 | proved | C140_facet_points, C140_facet_vertices, C140_facet_points_distinct | vertices and facets of basix' reference cells are transcribed
C141 | partial | C141_facet_symmetries_partial, C141_facet_symmetries_refuted, C141_symmetries_distinct | refuted: symmetries 6 and 7 of quadrilaterals raise; all others proved
C142 | proved | C142_kernel_sum | the two-sides and one-point conditions are in the statement (see C144, C145)
C143 | partial | C143_several_quadratures_partial, C143_several_quadratures_refuted | refuted: the first loop reads the tables of the second quadrature; proved for the loops of the last quadrature with varying tables
C144 | partial | C144_second_side_partial, C144_second_side_refuted | refuted for static rules of one point; proved for permuted tables
C145 | partial | C145_one_point_rule_partial, C145_one_point_rule_refuted | refuted for static rules of one point; proved for two points or more
C146 | proved | C146_registry, C146_errors |
C147 | proved | C147_component_of_element |
C148 | partial | C148_degree_of_integral_partial, C148_degree_of_integral_refuted | refuted: all unfitted-boundary integrals get the last degree; proved when integrals with the same static rule have the same degree
C149 | proved | C149_cut_entity_assembly | conditions of C142
C15 | proved | C15_target_lists |
C150 | partial | C150_shipped_ranges_partial, C150_accepted_partial, C150_range_refuted, C150_suffix_refuted | ranges [X.Y.0, X.(Y+1).0), as shipped, are checked exactly; refuted for other ranges and for versions with a suffix
C151 | partial | C151_single_form_partial, C151_lists_refuted | refuted for lists (always the empty list); single and empty forms behave as documented
C152 | partial | C152_regions_partial, C152_tuple_refuted, C152_raises_refuted | proved when ids in tuples are not above the single ids of exterior integrals; refuted otherwise
C153 | partial | C153_form_after_partial, C153_data_refuted, C153_raising_refuted, C153_other_forms_refuted | what exactly changes is proved for a successful call; refuted as stated
C154 | partial | C154_single_forms_partial, C154_lists_refuted | proved for a residual form and a Jacobian form; refuted for lists of forms
C155 | partial | C155_linker_variable_partial, C155_two_token_options_refuted | the variable is always restored and has the tokens without repetitions; refuted for options of two tokens
C156 | proved | C156_nanson_2d, C156_nanson_3d, C156_nanson_manifold, C156_curve_integral | pointwise in the plane, in space and for surfaces; as an equality of integrals for curves in the plane
C157 | partial | C157_single_id_partial, C157_call_partial, C157_tuple_refuted | proved for single ids (cells in the plane); refuted for tuples (UFL's branch for tuples is modelled from UFL's source, which is not in the repository)
C158 | partial | C158_disk, C158_sphere, C158_annulus, C158_cylinder, C158_torus, C158_plane, C158_line, C158_ellipse, C158_ellipsoid, C158_ellipsoid_rejects, C158_constant, C158_box_partial, C158_box_refuted, C158_square_binding_partial, C158_dim_linear, C158_tpms | proved for every constructor except create_box with a transformation, which always raises (refuted)
C159 | proved | C159_negative, C159_sum, C159_transformed, C159_eval | over all functions that a program can make
C16 | proved | C16_subdivision_sound, C16_every_cell | C16_every_cell is a complete description of the constructed domain
C160 | proved | C160_brackets, C160_parse, C160_total, C160_rename | regular expressions as greedy backtracking matching over ASCII characters; the names of the quadratures' data are not looked up
C161 | proved | C161_bounds, C161_normals, C161_determined, C161_original, C161_custom | the passes named in the anchors; erase_static_declarations is C180, rewrite_table_accesses is C182
C162 | partial | C162_contiguous, C162_calls, C162_queries, C162_step, C162_slices_refuted, C162_eval | proved for contiguous arrays; refuted for slices with a step (C162_step: exactly those)
C163 | partial | C163_readable, C163_domain, C163_domain_made, C163_no_leak, C163_mid_point_refuted | refuted for BoundBox.mid_point, proved for everything else
C164 | proved | C164_unfitted_mesh | cells handed out by DOLFINx: any distribution in which every row is owned once
C165 | partial | C165_active_cells_partial, C165_parallel_refuted | refuted on processes other than 0 for all the cells in another order; proved otherwise
C166 | proved | C166_arguments | real numbers for floating point (linspace)
C167 | proved | C167_create_mesh, C167_degree | 
C168 | partial | C168_geometry_partial, C168_geometry_refuted | proved for degrees 1 and 2; refuted for degree 3, the default (GLL nodes of the element, equispaced points)
C169 | partial | C169_serial_partial, C169_parallel_refuted | proved on one process; refuted for more (every process gives the whole reparameterization)
C17 | proved | C17_terminates_bounded |
C170 | partial | C170_shim_partial, C170_fast_path_refuted, C170_kill_refuted | refuted for calls that come during a build and after a kill; proved for calls that go through the lock when nobody is killed, and mutual exclusion, stability, progress and termination always
C171 | partial | C171_cache_partial, C171_killed_refuted, C171_failed_refuted | a call that returns has the complete module, always; refuted: calls after a kill or an interruption never return one; those waiting for a failing one time out
C172 | proved | C172_sessions, C172_flags | hashes of distinct elements distinct
C173 | proved | C173_cells, C173_facets |
C174 | partial | C174_cpp_domains, C174_python_partial, C174_python_refuted | proved for C++ domains and for meshes whose cells DOLFINx did not renumber; refuted for every other mesh
C175 | partial | C175_cpp_refuted, C175_python_refuted, C175_python_partial | refuted for C++ domains (always raises) and for every facet but the last of a cell; proved: one facet per facet of the list on its cell with its status
C176 | proved | C176_position_data | one form per module, as compile_forms does
C177 | partial | C177_after_import_partial, C177_idempotent, C177_other_versions, C177_early_import_refuted | refuted for names bound before qugar.dolfinx is imported
C178 | proved | C178_reparam_picture | objects of the C++ library; those made by create_reparam_mesh are drawn by DOLFINx
C179 | partial | C179_accepted, C179_one_side_refuted | exact characterisation of what is accepted; refuted: integrals over interior facets of one side only are rejected
C18 | partial | C18_target_cells_refuted, C18_target_cells_partial | false of the code: a conclusive sign test aborts (insert_cells asserts no targets); proved when every sign test is inconclusive
C180 | proved | C180_erased, C180_no_table_left | every text of the loops
C181 | partial | C181_text, C181_subscript_partial, C181_subscript_refuted | text of the access exactly; refuted: with both subscripts 0 the text is name[], not C
C182 | proved | C182_rewritten, C182_kernel | texts of accesses with texts without FE between them (FFCx's form)
C19 | partial | C19_leaf_status_refuted, C19_leaf_status_partial | false of the code: get_status asserts that the node has children
C20 | proved | C20_facet_lists_agree, C20_statuses, C20_some_unfitted_facet |
C21 | proved | C21_target_facet_lists |
C22 | partial | C22_facet_kinds_refuted, C22_facet_kinds_partial | false for facets whose stored status is unf_bdry or unf_bdry_ext_bdry: exact condition proved
C23 | proved | C23_unfitted_boundary_cells |
C24 | proved | C24_facet_from_samples, C24_cell_from_samples | the sampled rule (algoim) is an arbitrary list
C25 | proved | C25_facet_ids, C25_edge_ids |
C26 | proved | C26_cell_quadratures | the cut-cell rule is Algoim's, an oracle
C27 | proved | C27_facet_quadratures, C27_unfitted_quadratures, C27_unfitted_total | slices of facet and unfitted-boundary quadratures
C28 | proved | C28_erase_facet_points, C28_erase_boundary_points | 
C29 | proved | C29_interior_exterior, C29_facet_content | 
C30 | partial | C30_unfitted_facets_refuted, C30_unfitted_facets_partial | false as stated: the exterior quadrature asserts for facets whose only status is unfitted boundary; the partial theorem shows it aborts only there
C31 | proved | C31_no_leak | 
C32 | proved | C32_table_positions, C32_table_used | 
C33 | partial | C33_tensor_1d, C33_tensor_2d, C33_tensor_3d_refuted, C33_tensor_3d_partial, C33_scale_weights | 1D and 2D fully proved; false in 3D (the code scales with max instead of length and does not shift), true there for boxes at the origin
C34 | proved | C34_box_scaling |
C35 | proved | C35_box_extend |
C36 | proved | C36_compose, C36_inverse, C36_inverse_domain |
C37 | proved | C37_chain_rule |
C38 | partial | C38_around_axis_refuted, C38_around_axis_partial | false for axes along x: the second vector is zero; proved when the angle with x is above 1e-4
C39 | proved | C39_axis_1d, C39_axis_2d, C39_axis_3d, C39_axes_3d, C39_cartesian, C39_is_cartesian, C39_cartesian_axes |
C40 | proved | C40_tolerant_comparisons, C40_relative_comparisons |
C41 | proved | C41_unique_clusters |
C42 | proved | C42_merge_points_map | for every sorting routine (the order of ties is unspecified)
C43 | partial | C43_merge_only_coincident_refuted, C43_merge_only_coincident_partial | false for chains of near points; proved: spread at most (n-1) tolerances, and exact when proximity is transitive
C44 | proved | C44_mesh_histories_valid | every history of the modelled operations; the cells allocated by allocate_cells must have been filled
C45 | proved | C45_full_cell | algoim's Chebyshev nodes (order >= 7) are an arbitrary function
C46 | proved | C46_merge_meshes |
C47 | proved | C47_vtu_mask, C47_vtu_connectivity | the whole VTK ordering, not only the vertices
C48 | proved | C48_permute_cell, C48_orientation_reversed | the second theorem: the map of the flipped cell and the sign of its Jacobian, any order and nodes
C49 | partial | C49_orient_cells_partial, C49_orient_all_partial, C49_range_partial, C49_mesh_nodes_partial, C49_indeterminate_refuted, C49_nodes_refuted | false as stated: the Jacobian accumulates on default-constructed (uninitialised) points, and Chebyshev nodes are used for meshes with equispaced nodes (order 4 counterexample); proved for zero-initialised points and the nodes used
C50 | partial | C50_one_copy_refuted, C50_one_copy_partial | false for closed edges symmetric at the ends only (order >= 6); proved: no edge lost or invented, none listed twice, an edge and its reversal both kept only in that case
C51 | proved | C51_edge_points, C51_edges_share_ends |
C52 | proved | C52_bernstein_basis |
C53 | proved | C53_casteljau |
C54 | proved | C54_sign |
C55 | proved | C55_bezier_gradient |
C56 | proved | C56_arithmetic |
C57 | proved | C57_bezier_facet |
C58 | partial | C58_monomial_value, C58_monomial_gradient_refuted, C58_monomial_gradient_partial | values proved; gradients false when an order is 1 and the dimension is above 1
C59 | proved | C59_derivative |
C60 | partial | C60_monomial_facet_refuted, C60_monomial_facet_partial | false on the facets at 1 (only the leading coefficients are kept)
C61 | proved | C61_mono_to_bezier |
C62 | partial | C62_basis_1D_partial, C62_order_partial, C62_tensor_partial, C62_flag_refuted | interpolation, partition of unity and derivatives proved for any distinct nodes and order; the chebyshev flag is inverted
C63 | partial | C63_gradients_partial, C63_annulus_refuted, C63_annulus_partial | all primitives but the annulus, whose gradient is wrong at every point but the center
C64 | partial | C64_hessians_partial, C64_cylinder_refuted, C64_annulus_refuted, C64_trilinear_refuted | false for cylinder and annulus (everywhere) and the (y,z) entry of the trilinear function; proved for the rest
C65 | partial | C65_sphere, C65_annulus, C65_ellipsoid, C65_constant, C65_cylinder_partial, C65_torus_partial, C65_plane_partial, C65_plane_refuted, C65_short_axis_refuted | false for planes with a non-unit normal and for cylinders and tori with a very short axis; true otherwise
C66 | partial | C66_periodic, C66_values, C66_section, C66_gradients_partial, C66_hessians_partial, C66_iwp_gradient_refuted, C66_schoen_hessian_refuted | periodicity proved; SchoenIWP gradient false when the first two parameters differ; (x,z) entry of the 3D Schoen Hessian false
C67 | proved | C67_algebra |
C68 | proved | C68_square, C68_multilinear |
C69 | proved | C69_adjust_roots |
C70 | partial | C70_near_roots_refuted, C70_near_roots_partial | false for chains of near roots (an already moved root is compared with its old value); true without chains
C71 | partial | C71_reference_roots_refuted, C71_reference_roots_partial | false: reads at position psi_id instead of i
C72 | proved | C72_prune |
C73 | partial | C73_full_cell_refuted, C73_full_cell_partial | false: the tolerance is absolute, so cells of volume below 10 eps are always empty; proved above twice the tolerance
C74 | proved | C74_cell_rule, C74_facet_rule, C74_surface_rule | 
C75 | partial | C75_external_points_refuted, C75_external_points_partial | false for facets with external but no unfitted boundary pieces
C76 | partial | C76_indeterminate_refuted, C76_facet_normals_partial | refuted: the other components of the normal are those of a default-constructed (uninitialised) point; proved when they are zero
C77 | proved | C77_scale_map, C77_axes_map_2d, C77_axes_map_3d |
C78 | proved | C78_solids |
C79 | proved | C79_wirebasket | the two point checks are arbitrary predicates
C80 | proved | C80_hessians |
C81 | proved | C81_composition |
C82 | proved | C82_image_transforms |
C83 | partial | C83_levelset_partial, C83_facet_partial, C83_facet_id_partial, C83_indeterminate_refuted, C83_empty_refuted | refuted: the normal starts from default-constructed (uninitialised) points, and an empty list of functions is undefined behaviour; proved if default-constructed points were zero, for the nodes used by the code
C84 | proved | C84_scale_points |
C85 | proved | C85_region, C85_boxes | for boxes with sides above 2^32 default tolerances (about 1e-5); with a level set unused points may be left in the mesh
C86 | proved | C86_facet, C86_facet_id | same hypotheses as C85
C87 | partial | C87_region_partial, C87_levelset_partial, C87_facet_partial | proved if default-constructed points were zero, for the interpolation at the nodes used by the code; refuted otherwise for the functions it calls (C49_indeterminate_refuted, C83_indeterminate_refuted)
C88 | proved | C88_nothing, C88_whole_box |
C89 | proved | C89_unmerged, C89_all_cells, C89_order | non-Bezier function; cells with sides above 2^32 default tolerances (about 1e-5)
C90 | proved | C90_merged | same hypotheses as C89
C91 | partial | C91_gauss_shape, C91_gauss_exact_1d, C91_gauss_exact_2d, C91_gauss_exact_3d_partial, C91_gauss_3d_refuted | in 3D proved for boxes with the minimum corner at the origin and refuted for others (the box [1,2]^3; see C33); literals taken as exact decimals
C92 | partial | C92_tanh_sinh_shape, C92_tanh_sinh_affine_1d, C92_tanh_sinh_affine_2d, C92_tanh_sinh_affine_3d_partial, C92_tanh_sinh_3d_refuted | as C91
C93 | proved | C93_full_cell_2d, C93_full_cell_3d |
C94 | partial | C94_no_zero_partial, C94_positive_refuted | a positive polynomial is given a full cell (refuted); the rest proved
C95 | proved | C95_bezier_region | Algoim's masks, eliminations and root finder are oracles; roots in [0,1], height direction in range
C96 | partial | C96_bezier_returns_partial, C96_bezier_ub_refuted | undefined behaviour over a tensor-product base (refuted); proved: never throws, returns when the number of interior roots is constant over that base
C97 | partial | C97_bezier_domain_partial | never throws; returned meshes characterised; normal termination only for steady polynomials (C96 refuted)
C98 | partial | C98_levelset_partial, C98_levelset_refuted | refuted for steep functions (a point at distance of order 1 from the level set); proved in 2D when L*M <= 1000 (L the Lipschitz constant, M the size); 3D open
C99 | partial | C99_region_partial, C99_region_refuted | as C98; proved in 2D when L*M <= 1000; 3D open
