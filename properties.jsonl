{"id": "C01", "title": "Flat and tensor indices are inverse bijections", "statement": "For every tensor size whose product fits a signed 32-bit int, TensorIndexTP(f,size).flat(size) returns f for every 0<=f<product, TensorIndexTP(t.flat(size),size) returns t for every in-range t, flat() is onto [0,product), lower directions run fastest, and none of the conversions aborts or overflows.", "quantifier": "every dimension, every size vector with positive entries and product <= INT_MAX, every flat id and every in-range tensor index", "why_tests_cant": "sizes and indices are unbounded; a test only samples a few grids", "anchors": ["cpp/include/qugar/tensor_index_tp.hpp:TensorIndexTP(int64,size)", "cpp/qugar/tensor_index_tp.cpp:TensorIndexTP::flat", "cpp/qugar/cart_grid_tp.cpp:CartGridTP::to_flat/to_tensor"]}
{"id": "C02", "title": "64-bit flat ids convert for every grid the 64-bit API can number", "statement": "Every flat cell id that to_flat can return without overflowing int64 can be converted back with to_tensor without aborting or hitting undefined behaviour.", "quantifier": "every size vector whose product fits int64, every in-range flat id", "why_tests_cant": "the failing grids have more than 2^31 cells; no unit test allocates one", "anchors": ["cpp/include/qugar/tensor_index_tp.hpp:TensorIndexTP(int64,size)", "cpp/qugar/cart_grid_tp.cpp:CartGridTP::to_tensor"]}
{"id": "C03", "title": "Range iteration visits every index exactly once, in lexicographic order", "statement": "Iterating a tensor index range from begin() to end() terminates and yields exactly the indices lower<=t<upper, each once, in increasing lexicographic order (direction 0 fastest), and the number of visited indices equals size().", "quantifier": "every dimension, every range that is non-empty in every direction", "why_tests_cant": "the loop length is the product of unbounded sizes", "anchors": ["cpp/qugar/tensor_index_tp.cpp:TensorIndexRangeTP::Iterator::operator++", "cpp/qugar/tensor_index_tp.cpp:TensorIndexRangeTP::cbegin/cend/size"]}
{"id": "C04", "title": "Iterating an empty range yields nothing", "statement": "Whenever size() of a tensor index range is zero, iterating it from begin() to end() visits no index.", "quantifier": "every range with lower<=upper", "why_tests_cant": "tests only use ranges empty in all directions or in none", "anchors": ["cpp/qugar/tensor_index_tp.cpp:TensorIndexRangeTP::Iterator::operator++", "cpp/qugar/tensor_index_tp.cpp:TensorIndexRangeTP::cbegin/cend"]}
{"id": "C05", "title": "split() partitions a range", "statement": "Splitting a range of more than one index gives two non-empty ranges that are disjoint, whose union is the original range, whose sizes differ by at most one layer along a direction of maximal extent, and that are each strictly smaller than the original.", "quantifier": "every dimension and every range with more than one index", "why_tests_cant": "must hold for every range met in the recursive subdivision", "anchors": ["cpp/qugar/tensor_index_tp.cpp:TensorIndexRangeTP::split", "cpp/qugar/cart_grid_tp.cpp:SubCartGridTP::split"]}
{"id": "C06", "title": "operator< on tensor indices is a strict weak order that compares from the last component", "statement": "operator< is irreflexive, asymmetric, transitive, has transitive incomparability, and agrees with the documented comparison starting from the last component.", "quantifier": "every dimension and every pair/triple of tensor indices", "why_tests_cant": "order laws quantify over all triples", "anchors": ["cpp/qugar/tensor_index_tp.cpp:TensorIndexTP::operator<"]}
{"id": "C07", "title": "Membership by flat id agrees with membership by tensor index", "statement": "is_in_range(flat,total) is true exactly when flat is a valid id of the total size and its tensor index lies in the range.", "quantifier": "every range, every total size, every flat id >= 0", "why_tests_cant": "unbounded ids", "anchors": ["cpp/qugar/tensor_index_tp.cpp:TensorIndexRangeTP::is_in_range"]}
{"id": "C08", "title": "Grid cells tile the grid domain", "statement": "Every point of the grid domain lies in the closed box of at least one cell; two different cells have disjoint interiors; every cell box is contained in the domain and has positive extent in each direction.", "quantifier": "every Cartesian grid (any dimension, any strictly increasing breaks), every point and every pair of cells", "why_tests_cant": "real-valued points and arbitrary knot vectors cannot be enumerated", "anchors": ["cpp/qugar/cart_grid_tp.cpp:CartGridTP::get_cell_domain", "cpp/qugar/cart_grid_tp.cpp:CartGridTP::get_domain"]}
{"id": "C09", "title": "get_cell_id locates points", "statement": "For every point of the domain and every tolerance smaller than the smallest knot span, get_cell_id returns (without aborting) a valid cell id whose box, enlarged by the tolerance, contains the point.", "quantifier": "every grid, tolerance and point of the domain", "why_tests_cant": "continuous input", "anchors": ["cpp/qugar/cart_grid_tp.cpp:CartGridTP::get_cell_id"]}
{"id": "C10", "title": "get_cell_id resolves shared points to the lowest neighbouring cell", "statement": "If the point is shared by several cells, the id returned by get_cell_id is the lowest among the ids of the cells that contain the point.", "quantifier": "every grid and every point on a cell boundary", "why_tests_cant": "a documented tie-break over all points", "anchors": ["cpp/include/qugar/cart_grid_tp.hpp:get_cell_id (documentation)", "cpp/qugar/cart_grid_tp.cpp:CartGridTP::get_cell_id"]}
{"id": "C11", "title": "Boundary cells are exactly the cells on that side of the grid", "statement": "For every facet, get_boundary_cells returns, without duplicates and in increasing order, exactly the ids of the cells for which on_boundary(id,facet) is true, and on_boundary holds exactly when the cell box touches that side of the domain.", "quantifier": "every grid with at most INT_MAX cells, every facet id", "why_tests_cant": "unbounded grid sizes", "anchors": ["cpp/qugar/cart_grid_tp.cpp:CartGridTP::get_boundary_cells", "cpp/qugar/cart_grid_tp.cpp:CartGridTP::on_boundary"]}
{"id": "C12", "title": "Equispaced grids have the requested breaks", "statement": "A grid built from a box of positive extent and a number of intervals per direction has n+1 strictly increasing breaks whose first and last values are the box limits and whose spans are all equal (in exact arithmetic).", "quantifier": "every box, every number of intervals >= 1", "why_tests_cant": "unbounded number of intervals", "anchors": ["cpp/qugar/cart_grid_tp.cpp:create_equispaced_breaks"]}
{"id": "C13", "title": "Full, empty and cut cells partition the grid", "statement": "After building an unfitted implicit domain (no target cells), every cell of the grid appears in exactly one of get_full_cells, get_empty_cells, get_cut_cells; each list is sorted strictly increasing; get_num_full/empty/cut_cells are the lengths of those lists and add up to get_num_total_cells.", "quantifier": "every grid and every behaviour of the level-set sign test and of the cell classification", "why_tests_cant": "quantifies over every level-set function", "anchors": ["cpp/qugar/unfitted_domain.cpp:UnfittedDomain", "cpp/qugar/unfitted_domain_binary_part.cpp:get_cell_ids/get_num_cells", "cpp/qugar/impl_unfitted_domain.cpp:create_decomposition"]}
{"id": "C14", "title": "Per-cell queries agree with the cell lists", "statement": "For every valid cell id, is_full_cell / is_empty_cell / is_cut_cell is true exactly when the id is in get_full_cells / get_empty_cells / get_cut_cells.", "quantifier": "every built domain and every valid cell id", "why_tests_cant": "tree search versus tree traversal over all trees", "anchors": ["cpp/qugar/unfitted_domain.cpp:is_full_cell/is_empty_cell/is_cut_cell", "cpp/qugar/unfitted_domain_binary_part.cpp:find_leaf/is_cell"]}
{"id": "C15", "title": "Target-restricted cell lists filter the target", "statement": "get_X_cells(targets) is the sorted list of exactly those target ids (with their multiplicity) that have status X.", "quantifier": "every built domain and every list of valid target ids", "why_tests_cant": "unbounded target lists", "anchors": ["cpp/qugar/unfitted_domain_binary_part.cpp:get_cell_ids(status,targets)"]}
{"id": "C16", "title": "The subdivision is sound with respect to the sign test", "statement": "If the interval sign test is sound (negative/positive answers are right on the enlarged box it is given), then every cell never classified individually gets full only if the function is negative on the whole closed cell and empty only if it is positive on it; only cells for which the sign test was inconclusive can be cut.", "quantifier": "every function, grid and sound sign test", "why_tests_cant": "quantifies over all functions and all points of a cell", "anchors": ["cpp/qugar/impl_unfitted_domain.cpp:create_decomposition", "cpp/qugar/impl_unfitted_domain.cpp:insert_cells"]}
{"id": "C17", "title": "The subdivision terminates with at most 2N-1 sign tests", "statement": "Building the domain terminates for every grid and every answer sequence of the sign test, and evaluates the sign test at most 2N-1 times and the cell classification at most N times for a grid of N cells.", "quantifier": "every grid whose cells are numbered by int and with at most 2^30 cells per direction (beyond that split() overflows, see C05), and every (even adversarial) sign test", "why_tests_cant": "termination cannot be tested", "anchors": ["cpp/qugar/impl_unfitted_domain.cpp:create_decomposition"]}
{"id": "C18", "title": "A domain restricted to target cells classifies exactly those cells", "statement": "Building a domain with a list of target cells completes without abort and gives every target cell the status it has in the unrestricted domain.", "quantifier": "every grid, function and target list", "why_tests_cant": "quantifies over all target lists", "anchors": ["cpp/qugar/impl_unfitted_domain.cpp:insert_cells", "cpp/qugar/impl_unfitted_domain.cpp:UnfittedImplDomain(phi,grid,cells)"]}
{"id": "C19", "title": "The status of a leaf of the space partition can be queried", "statement": "get_status() on a leaf returns the status given by set_status() without aborting.", "quantifier": "every leaf of every tree", "why_tests_cant": "debug-build behaviour of every leaf", "anchors": ["cpp/qugar/unfitted_domain_binary_part.cpp:UnfittedBinarySpacePart::get_status"]}
{"id": "C20", "title": "Facet lists agree with per-facet queries", "statement": "For each of empty, full, cut, full-unfitted and unfitted: the pair (cell,facet) is in the corresponding get_*_facets list exactly when the corresponding is_*/has_* query returns true, for every valid cell and local facet, and no pair is listed twice.", "quantifier": "every built domain, every cell, every local facet", "why_tests_cant": "every function and grid", "anchors": ["cpp/qugar/unfitted_domain.cpp:get_empty_facets/get_full_facets/get_cut_facets/get_full_unfitted_facets/get_unfitted_facets", "cpp/qugar/unfitted_domain.cpp:is_empty_facet/is_full_facet/is_cut_facet/is_full_unfitted_facet/has_unfitted_boundary"]}
{"id": "C21", "title": "Target-restricted facet lists filter the target", "statement": "The get_*_facets overloads with targets return, in the given order and with multiplicity, exactly the target (cell,facet) pairs for which the corresponding query is true.", "quantifier": "every built domain and every target list", "why_tests_cant": "unbounded target lists", "anchors": ["cpp/qugar/unfitted_domain.cpp:get_facets_target"]}
{"id": "C22", "title": "Every facet is exactly one of full, empty, cut or full-unfitted", "statement": "For every valid cell and local facet of a built domain exactly one of is_full_facet, is_empty_facet, is_cut_facet, is_full_unfitted_facet is true.", "quantifier": "every built domain, cell and facet", "why_tests_cant": "every function and grid", "anchors": ["cpp/qugar/unfitted_domain.cpp:is_full_facet/is_empty_facet/is_cut_facet/is_full_unfitted_facet", "cpp/qugar/impl_unfitted_domain.cpp:classify_facet_from_quad"]}
{"id": "C23", "title": "Cells with unfitted boundary", "statement": "is_full_with_unf_bdry_cell(id) is true exactly for the full cells that own a facet that is not plainly full; is_cell_with_unf_bdry(id) is true exactly for cut cells and those; every such cell is full or cut, never empty.", "quantifier": "every built domain and every valid cell id", "why_tests_cant": "every function and grid", "anchors": ["cpp/qugar/unfitted_domain.cpp:is_full_with_unf_bdry_cell/init_full_cells_with_unf_bdry/is_cell_with_unf_bdry", "cpp/qugar/impl_unfitted_domain.cpp:classify_undetermined_sign_cell"]}
{"id": "C24", "title": "Facet classification from sample points", "statement": "The status given to a facet of a cut or full-with-unfitted-boundary cell depends only on: whether there are sample points, whether some sample is off the level set, whether some on-level-set sample has an outward / inward aligned normal, whether the sample weights cover the facet, and the sample count; and it reports cut exactly when there is an off-level-set sample that does not make the facet plainly full, for cut cells.", "quantifier": "every list of sample points, every cell kind", "why_tests_cant": "the sample list is unbounded and its order arbitrary", "anchors": ["cpp/qugar/impl_unfitted_domain.cpp:classify_facet_from_quad/classify_facet_full_unfitted_boundary"]}
{"id": "C25", "title": "Local facet and edge ids", "statement": "(constant direction, side) <-> local facet id is a bijection for every dimension; in 3D the 12 edge ids map injectively to (two constant directions, two sides) covering all edges.", "quantifier": "every dimension, direction, side, facet and edge id", "why_tests_cant": "dimension is a parameter; the bijection is over all ids", "anchors": ["cpp/qugar/impl_utils.cpp:get_facet_constant_dir/get_facet_side/get_local_facet_id/get_edge_constant_dirs/get_edge_sides"]}
{"id": "C26", "title": "Generated cell quadratures are well formed", "statement": "create_quadrature returns one point count per requested cell in the same order; the counts add up to the number of points, which equals the number of weights; the slice belonging to a cell contains exactly the points generated for it: none for empty cells, the n^dim Gauss rule for full cells, the cut rule for cut cells.", "quantifier": "every domain, every list of cells (repeated, unsorted, empty), every number of points, every cut rule", "why_tests_cant": "the concatenated layout depends on the whole history of cells", "anchors": ["cpp/qugar/cut_quadrature.cpp:create_quadrature", "cpp/qugar/impl_quadrature.cpp:create_cell_quadrature"]}
{"id": "C27", "title": "Generated boundary quadratures are well formed", "statement": "create_unfitted_bound_quadrature and the facet quadratures return one count per requested cell/facet in order; counts add up to the number of points = weights (= normals); cells without unfitted boundary and facets without a requested contribution get zero points.", "quantifier": "every domain, every list of cells/facets, every rule", "why_tests_cant": "as above", "anchors": ["cpp/qugar/cut_quadrature.cpp:create_unfitted_bound_quadrature/create_facets_quadrature_interior_integral/create_facets_quadrature_exterior_integral", "cpp/qugar/impl_quadrature.cpp"]}
{"id": "C28", "title": "Purging quadrature points removes exactly the marked points", "statement": "Erasing a set of points from the last cell/facet slice removes exactly the marked points with their weights (and normals), keeps the order of the others, leaves previous slices untouched and decreases the last count by the number removed.", "quantifier": "every accumulated quadrature and every set of marked indices", "why_tests_cant": "index shifting during erase over all index sets", "anchors": ["cpp/qugar/impl_quadrature.cpp:erase_points_in_quad/purge_facet_points"]}
{"id": "C29", "title": "Interior and exterior facet integrals do not overlap", "statement": "A facet requested in both the interior and the exterior facet quadratures contributes cut or full facet points to exactly one of them according to whether it lies on the grid boundary, and its unfitted-boundary points only to the exterior one.", "quantifier": "every domain and every facet", "why_tests_cant": "every grid and function", "anchors": ["cpp/qugar/cut_quadrature.cpp:create_facets_quadrature_interior_integral/create_facets_quadrature_exterior_integral", "cpp/qugar/impl_quadrature.cpp:create_facet_quadrature"]}
{"id": "C30", "title": "Facets with unfitted boundary can be integrated", "statement": "create_facets_quadrature_exterior_integral completes without abort for every facet reported by has_unfitted_boundary.", "quantifier": "every built domain and every facet", "why_tests_cant": "depends on reachable facet statuses", "anchors": ["cpp/qugar/impl_quadrature.cpp:compute_facet_quadrature_with_algoim_general/Bezier", "cpp/qugar/impl_quadrature.cpp:create_facet_quadrature"]}
{"id": "C31", "title": "Cached Gauss rules do not leak between calls", "statement": "The points and weights generated for a full cell with n points per direction depend only on n, not on which rules were requested earlier in the process.", "quantifier": "every history of calls with arbitrary numbers of points", "why_tests_cant": "quantifies over call histories", "anchors": ["cpp/qugar/impl_quadrature.cpp:create_cell_quadrature (static rule cache)"]}
{"id": "C32", "title": "Gauss tables are addressed without overlap", "statement": "For every rule size 1..100 and every point index, the abscissa and weight lookups read inside the table, and different (size,point,kind) read different entries.", "quantifier": "every rule size and point index in the supported range", "why_tests_cant": "address arithmetic over the whole table", "anchors": ["cpp/qugar/quadrature_lib.cpp:get_abscissa_/get_weight_", "cpp/qugar/quadrature.cpp:create_Gauss_01"]}
{"id": "C33", "title": "Tensor-product quadrature is the product rule on the box", "statement": "create_tp_quadrature places, for each tensor index (lexicographic), the affinely mapped product point with the product weight scaled by the box volume; hence it integrates every product of functions as the product of the mapped 1-D rules and the weights add up to the volume when the 1-D weights add up to one.", "quantifier": "every dimension 1..3, every box, all 1-D rules", "why_tests_cant": "arbitrary boxes and rules", "anchors": ["cpp/qugar/quadrature.cpp:create_tp_quadrature"]}
{"id": "C34", "title": "Box scaling maps are inverse and map corners to corners", "statement": "scale_to_0_1 and scale_from_0_1 are mutually inverse on every box of positive extent; scale_to_new_domain maps box to box (corners to corners, inside to inside) and going there and back is the identity.", "quantifier": "every pair of boxes with positive extents and every point", "why_tests_cant": "continuous input", "anchors": ["cpp/qugar/bbox.cpp:scale_to_0_1/scale_from_0_1/scale_to_new_domain"]}
{"id": "C35", "title": "Extending boxes", "statement": "extend(point) returns the smallest box containing the old box and the point; extend(delta) with delta>=0 contains the old box; min<=max is preserved.", "quantifier": "every box, point, delta", "why_tests_cant": "continuous input", "anchors": ["cpp/qugar/bbox.cpp:extend"]}
{"id": "C36", "title": "Affine maps compose and invert", "statement": "(A*B)(x)=A(B(x)); A*A.inverse() and A.inverse()*A act as the identity for every invertible A; identity is neutral; composition is associative.", "quantifier": "every affine map in 2D/3D whose determinant is not zero up to the default tolerance (otherwise inverse() asserts), every point", "why_tests_cant": "continuous input", "anchors": ["cpp/qugar/affine_transf.cpp:operator*/inverse/transform_point"]}
{"id": "C37", "title": "Gradients and Hessians of transformed functions follow the chain rule", "statement": "For a differentiable base function f, the value, gradient and Hessian reported by the transformed function are those of f composed with the inverse transform.", "quantifier": "every differentiable function, every invertible affine map, every point", "why_tests_cant": "quantifies over functions", "anchors": ["cpp/qugar/affine_transf.cpp:transform_vector/transform_tensor", "cpp/qugar/impl_funcs_lib.cpp:TransformedFunction", "cpp/include/qugar/impl_funcs_lib_macros.hpp:implement_impl_func_transf"]}
{"id": "C38", "title": "Rotation transforms around an axis are built on an orthonormal system", "statement": "For every unit axis, the auxiliary reference system built around the axis is orthonormal and right handed.", "quantifier": "every unit vector", "why_tests_cant": "the failing axis is an edge case of a branch", "anchors": ["cpp/qugar/affine_transf.cpp:create_reference_system_around_axis"]}
{"id": "C39", "title": "Reference systems are orthonormal", "statement": "A reference system built from one non-zero axis (3D), from one non-zero direction (2D) or from two independent axes has unit, mutually orthogonal basis vectors with the requested axis direction kept, and it is right handed.", "quantifier": "every origin and every non-degenerate axes", "why_tests_cant": "continuous input", "anchors": ["cpp/qugar/ref_system.cpp:create_orthonormal_system"]}
{"id": "C40", "title": "Tolerant comparisons are consistent", "statement": "For every tolerance, exactly one of is_zero/is_negative/is_positive holds for each number; exactly one of equal/greater_than/smaller_than holds for each pair; equal is reflexive and symmetric; greater_equal_than is the negation of smaller_than; update never decreases the tolerance.", "quantifier": "every tolerance >=0 and every real numbers", "why_tests_cant": "continuous input", "anchors": ["cpp/qugar/tolerance.cpp"]}
{"id": "C41", "title": "Tolerance::unique keeps one representative per cluster", "statement": "unique sorts the values; the result is a strictly increasing sub-list of the input whose consecutive values differ by more than the tolerance, and every input value is within tolerance of a kept one.", "quantifier": "every tolerance and every list of values", "why_tests_cant": "unbounded lists", "anchors": ["cpp/qugar/tolerance.cpp:Tolerance::unique"]}
{"id": "C42", "title": "Merging points keeps every reference valid", "statement": "make_points_unique returns a map old->new that is total, in range and onto; every new point is one of the old points it represents; points within tolerance in every coordinate get the same new id; new ids increase with the old positions of the kept points.", "quantifier": "every list of points and every tolerance", "why_tests_cant": "unbounded lists and arbitrary proximity patterns", "anchors": ["cpp/qugar/point.cpp:find_coincident_points/make_points_unique"]}
{"id": "C43", "title": "Merging points only merges points within tolerance", "statement": "Two points that make_points_unique maps to the same new point are coincident up to the tolerance.", "quantifier": "every list of points and every tolerance", "why_tests_cant": "needs chains of near points", "anchors": ["cpp/qugar/point.cpp:find_coincident_points"]}
{"id": "C44", "title": "Reparameterization meshes stay valid under every operation", "statement": "After any sequence of add_full_cell(s), allocate/insert of all points of a cell, merge with another mesh, merge_coincident_points, and cell permutation, every connectivity entry (cells and wirebasket) refers to an existing point and the connectivity length is a multiple of the number of points per cell.", "quantifier": "every history of mesh operations", "why_tests_cant": "quantifies over operation sequences", "anchors": ["cpp/qugar/reparam_mesh.cpp:merge/add_full_cell/allocate_cells/insert_cell_point/merge_coincident_points/permute_cell_directions"]}
{"id": "C45", "title": "Full cells are reparameterized by their tensor-product grid of points", "statement": "add_full_cell appends exactly order^dim new points, the affine images of the reference nodes in lexicographic order, a connectivity referring to them in that order, and (if requested) the point lists of all cell edges.", "quantifier": "every mesh, box and order >= 2", "why_tests_cant": "unbounded order", "anchors": ["cpp/qugar/reparam_mesh.cpp:add_full_cell"]}
{"id": "C46", "title": "Merging meshes preserves both geometries", "statement": "After merge(other) the old cells keep their points and every cell of the other mesh appears with the same point coordinates; counts add up.", "quantifier": "every pair of meshes of the same order", "why_tests_cant": "unbounded meshes", "anchors": ["cpp/qugar/reparam_mesh.cpp:merge"]}
{"id": "C47", "title": "The VTK connectivity mask is a permutation", "statement": "For every order >= 2 and dimension 1,2,3 the mask used to write Lagrange cells is a permutation of 0..order^dim-1 that starts with the cell vertices in VTK order.", "quantifier": "every order", "why_tests_cant": "order unbounded", "anchors": ["cpp/qugar/reparam_mesh.cpp:create_VTU_conn_mask"]}
{"id": "C48", "title": "Permuting the directions of a cell is an orientation-reversing involution", "statement": "permute_cell_directions applied twice restores the mesh; it permutes only the connectivity of the given cell, transposing directions 0 and 1 (reversing in 1D), and so changes the sign of the cell Jacobian.", "quantifier": "every mesh, cell, order", "why_tests_cant": "order unbounded", "anchors": ["cpp/qugar/reparam_mesh.cpp:permute_cell_directions"]}
{"id": "C49", "title": "orient_cells_positively leaves every selected cell non-negatively oriented", "statement": "After orient_cells_positively every listed cell has a non-negative Jacobian determinant at its centre, other cells are unchanged, and repeating the call changes nothing.", "quantifier": "every mesh and list of cells without repetition", "why_tests_cant": "unbounded meshes", "anchors": ["cpp/qugar/impl_reparam_mesh.cpp:orient_cells_positively"]}
{"id": "C50", "title": "Wirebasket purging keeps exactly one copy of each edge", "statement": "Merging coincident points leaves exactly one copy of each wirebasket edge, an edge and its reversal counting as the same edge; no edge is lost.", "quantifier": "every wirebasket", "why_tests_cant": "arbitrary multiplicities", "anchors": ["cpp/qugar/reparam_mesh.cpp:sort_wirebasket_edges/purge_duplicate_wirebasket_edges"]}
{"id": "C51", "title": "Edge points of a cell", "statement": "get_edge_points returns order ids: the cell points whose tensor index is on the given sides of the constant directions, in increasing order along the edge; different edges of a cell share at most an end point.", "quantifier": "every cell, edge id, order", "why_tests_cant": "order unbounded", "anchors": ["cpp/qugar/reparam_mesh.cpp:get_edge_points"]}
{"id": "C52", "title": "Bernstein bases are a non-negative partition of unity and match the closed form", "statement": "evaluate_Bernstein with order n returns C(n-1,i) x^i (1-x)^(n-1-i), which are non-negative on [0,1] and add up to 1; the derivative versions return the derivatives.", "quantifier": "every order >= 1, every x", "why_tests_cant": "unbounded order and continuous x", "anchors": ["cpp/qugar/bezier_tp_utils.cpp:evaluate_Bernstein_value/evaluate_Bernstein"]}
{"id": "C53", "title": "De Casteljau evaluation equals the Bernstein expansion", "statement": "Evaluating a Bezier tensor-product polynomial equals the sum of coefficients times products of Bernstein polynomials; hence on the unit box the value lies between the minimum and maximum coefficient.", "quantifier": "every dimension, order, coefficient list and point", "why_tests_cant": "unbounded order", "anchors": ["cpp/qugar/bezier_tp.cpp:casteljau"]}
{"id": "C54", "title": "Bezier sign test is sound", "statement": "If sign() of a Bezier polynomial is positive (negative), the polynomial is positive (negative) on the whole unit box.", "quantifier": "every polynomial and every point of the box", "why_tests_cant": "continuous input", "anchors": ["cpp/qugar/bezier_tp.cpp:sign"]}
{"id": "C55", "title": "Bezier gradients are the derivatives of the evaluated polynomial", "statement": "grad() returns the partial derivatives of operator().", "quantifier": "every dimension, order, coefficients, point", "why_tests_cant": "unbounded order", "anchors": ["cpp/qugar/bezier_tp.cpp:casteljau_der"]}
{"id": "C56", "title": "Bezier arithmetic evaluates pointwise", "statement": "The product, sum, difference, negation and order elevation of Bezier polynomials evaluate to the product, sum, difference, negation and the same value.", "quantifier": "every pair of polynomials of any orders and every point", "why_tests_cant": "unbounded order", "anchors": ["cpp/qugar/bezier_tp_utils.cpp:Bezier_product", "cpp/qugar/bezier_tp.cpp:operator+/operator-/raise_order/negate"]}
{"id": "C57", "title": "Bezier facet extraction is restriction", "statement": "Evaluating extract_facet(f) at a facet point equals evaluating the polynomial at the corresponding boundary point of the unit box.", "quantifier": "every polynomial, facet, point", "why_tests_cant": "unbounded order", "anchors": ["cpp/qugar/bezier_tp.cpp:extract_facet"]}
{"id": "C58", "title": "Monomial evaluation and gradient", "statement": "Evaluating a monomial tensor-product polynomial equals the sum of coefficients times powers, and grad() returns its partial derivatives.", "quantifier": "every dimension, order, coefficients, point", "why_tests_cant": "unbounded order", "anchors": ["cpp/qugar/monomials_tp.cpp:horner/horner_der/evaluate_monomial_basis"]}
{"id": "C59", "title": "Monomial derivative polynomial", "statement": "create_derivative(dir) evaluates to the partial derivative along dir if the polynomial has degree at least one along dir; with degree zero it returns, as documented, a copy of the polynomial.", "quantifier": "every polynomial (any degree) and direction", "why_tests_cant": "unbounded order", "anchors": ["cpp/qugar/monomials_tp.cpp:create_derivative"]}
{"id": "C60", "title": "Monomial facet extraction is restriction", "statement": "Evaluating extract_facet(f) of a monomial polynomial at a facet point equals evaluating the polynomial at the boundary point.", "quantifier": "every polynomial, facet, point", "why_tests_cant": "unbounded order", "anchors": ["cpp/qugar/monomials_tp.cpp:extract_facet"]}
{"id": "C61", "title": "Monomial to Bezier conversion preserves the function", "statement": "The Bezier polynomial constructed from a monomial polynomial evaluates to the same values everywhere.", "quantifier": "every dimension, order, coefficients, point", "why_tests_cant": "unbounded order", "anchors": ["cpp/qugar/monomials_tp.cpp:transform_coefs_to_Bezier", "cpp/qugar/bezier_tp.cpp:BezierTP(MonomialsTP)"]}
{"id": "C62", "title": "Lagrange bases interpolate", "statement": "With distinct nodes the Lagrange basis is one at its own node and zero at the others and adds up to one; the derivative evaluation returns the derivatives; the chebyshev flag selects Chebyshev nodes when true and equispaced nodes when false.", "quantifier": "every order >= 2, every point", "why_tests_cant": "unbounded order", "anchors": ["cpp/qugar/lagrange_tp_utils.cpp:evaluate_Lagrange_basis_1D/evaluate_Lagrange_derivative_1D"]}
{"id": "C63", "title": "Primitive level-set functions have correct gradients", "statement": "For sphere, ellipsoid, cylinder, plane, annulus, torus and constant functions, grad() is the gradient of operator().", "quantifier": "all parameters and all points", "why_tests_cant": "continuous input", "anchors": ["cpp/qugar/primitive_funcs_lib.cpp"]}
{"id": "C64", "title": "Primitive level-set functions have correct Hessians", "statement": "For sphere, ellipsoid, cylinder, plane, annulus, torus, constant and multilinear functions, hessian() is the Hessian of operator().", "quantifier": "all parameters and all points", "why_tests_cant": "continuous input", "anchors": ["cpp/qugar/primitive_funcs_lib.cpp", "cpp/qugar/impl_funcs_lib.cpp:DimLinear"]}
{"id": "C65", "title": "Bezier versions of the primitives are the same functions", "statement": "SphereBzr, EllipsoidBzr, CylinderBzr, AnnulusBzr, TorusBzr, PlaneBzr and ConstantBzr take the same value as their plain counterparts with the same parameters at every point.", "quantifier": "all parameters and all points", "why_tests_cant": "continuous input", "anchors": ["cpp/qugar/primitive_funcs_lib.cpp:create_monomials"]}
{"id": "C66", "title": "Triply periodic functions: periodicity, gradients and Hessians", "statement": "Each TPMS function is periodic with period 1/m,1/n,1/q along the axes; grad() and hessian() are its derivatives.", "quantifier": "all parameters and all points", "why_tests_cant": "continuous input", "anchors": ["cpp/qugar/tpms_lib.cpp"]}
{"id": "C67", "title": "Function algebra: negation, sum and difference", "statement": "Negative, AddFunctions and SubtractFunctions report value, gradient and Hessian of -f, f+g and f-g.", "quantifier": "every pair of functions with correct derivatives, every point", "why_tests_cant": "quantifies over functions", "anchors": ["cpp/qugar/impl_funcs_lib.cpp:Negative/AddFunctions/SubtractFunctions"]}
{"id": "C68", "title": "Square and multilinear functions", "statement": "Square is max_i |x_i| - 1: negative exactly inside the box (-1,1)^d, and its gradient is right wherever the maximum is attained by one non-zero coordinate; DimLinear interpolates its corner values and its gradient is its derivative.", "quantifier": "all points and coefficients", "why_tests_cant": "continuous input", "anchors": ["cpp/qugar/impl_funcs_lib.cpp:Square/DimLinear"]}
{"id": "C69", "title": "Adjusted roots are ordered and keep the interval ends", "statement": "adjust_roots returns the roots in non-decreasing order inside [x0,x1], with the interval-end markers first and last if present, and preserves the number of level-set roots and their ids.", "quantifier": "every list of roots in [x0,x1], every tolerance smaller than the interval", "why_tests_cant": "unbounded lists", "anchors": ["cpp/qugar/impl_utils.cpp:RootsIntervals::adjust_roots"]}
{"id": "C70", "title": "Near roots become coincident", "statement": "After adjust_roots any two consecutive roots are either equal or further apart than the tolerance.", "quantifier": "every list of roots and tolerance", "why_tests_cant": "needs chains of near roots", "anchors": ["cpp/qugar/impl_utils.cpp:RootsIntervals::adjust_roots"]}
{"id": "C71", "title": "Reference roots are those of the requested restriction", "statement": "The reference roots used for a restriction are exactly the stored roots whose restriction id is that restriction.", "quantifier": "every stored interval set and every restriction id", "why_tests_cant": "unbounded lists", "anchors": ["cpp/qugar/impl_reparam_general.cpp:get_ref_intervals_roots"]}
{"id": "C72", "title": "Pruning restrictions is sound", "statement": "The pruning of level-set restrictions keeps exactly the restrictions whose sign is not determined, returns false exactly when some determined restriction contradicts its required sign, and terminates.", "quantifier": "every list of restrictions and every interval oracle", "why_tests_cant": "swap-with-last removal over all lists", "anchors": ["cpp/qugar/impl_reparam_general.cpp:prune"]}
{"id": "C73", "title": "Sampling classifies cells correctly at every scale", "statement": "A cell of positive volume whose sample weights (of the negative region) add up to its volume is classified as full, whatever the length unit of the grid; a cell without samples is classified as empty; anything strictly in between is cut.", "quantifier": "every list of samples and every cell box", "why_tests_cant": "continuous input; the failure appears for small cells only", "anchors": ["cpp/qugar/impl_unfitted_domain.cpp:classify_cell_from_quad"]}
{"id": "C74", "title": "Reference rules reproduce integrals over the physical cell", "statement": "For a general (non-Bezier) function, the generated rule of a cut cell (points in the unit cell, weights) times the volume of the cell integrates every function as the rule on the physical cell does; the same for facets with the area of the facet; every generated surface point maps back to its physical point, its normal is a unit vector, and weight times normal transforms as an area vector (Nanson's formula), positive weights staying positive.", "quantifier": "every cell box, every rule of the cut integration library, every integrand", "why_tests_cant": "continuous quantification over boxes, rules and integrands", "anchors": ["cpp/qugar/impl_quadrature.cpp:CutCellsQuadWrapper,CutUnfBoundsQuadWrapper,CutIsoBoundsQuadWrapper"]}
{"id": "C75", "title": "Facet rules contain no external-boundary points", "statement": "A point of a facet rule that lies on the level set with the gradient pointing into the cell (the domain is on the other side of the facet) is never returned by the interior or exterior facet quadratures.", "quantifier": "every built domain, every cut facet, every rule", "why_tests_cant": "needs all facet statuses combined with all rules", "anchors": ["cpp/qugar/impl_quadrature.cpp:purge_facet_points,create_facet_quadrature"]}
{"id": "C76", "title": "Facet points of the unfitted boundary lie on the facet with the outward normal", "statement": "The points that create_unfitted_bound_quadrature adds for facets lying on the unfitted boundary have the facet coordinate (0 or 1) in the facet direction and as normal the outward unit vector of that facet.", "quantifier": "every built domain, every facet, every rule", "why_tests_cant": "all facet statuses and all rules", "anchors": ["cpp/qugar/impl_quadrature.cpp:add_unf_bdry_quad"]}
{"id": "C77", "title": "Affine map constructors", "statement": "The map built from origin, axes and positive scales sends the canonical basis to the scaled vectors of an orthonormal right-handed system whose first vector has the direction of the first axis, keeps the origin, and has the product of the scales as determinant; the uniform scaling constructor multiplies by the scale and translates.", "quantifier": "every origin, independent axes, positive scales, every point", "why_tests_cant": "continuous input", "anchors": ["cpp/qugar/affine_transf.cpp:compute_coefs,create_orthonormal_system"]}
{"id": "C78", "title": "The sign of a primitive describes its solid", "statement": "Sphere is negative exactly at distance below the radius of the center; Annulus exactly between its radii; Cylinder exactly at distance below the radius of its axis line; Torus exactly at distance below the minor radius of its circle; Ellipsoid is the sum of squared scaled frame coordinates minus one; Plane is the inner product with the normal.", "quantifier": "all parameters accepted by the constructors (axes longer than the tolerance) and all points", "why_tests_cant": "continuous input", "anchors": ["cpp/qugar/primitive_funcs_lib.cpp"]}
{"id": "C79", "title": "Which cell edges form the wirebasket", "statement": "generate_wirebasket appends, in order, the points of exactly those cell edges that are not collapsed and whose points all share range-1 sides of the domain with the first one, or share one side and satisfy the face check, or do not and satisfy the internal check; points and cells are unchanged.", "quantifier": "every valid mesh, list of cells and edges, domain, tolerance and pair of checks", "why_tests_cant": "unbounded meshes, continuous coordinates", "anchors": ["cpp/qugar/impl_reparam_mesh.cpp:generate_wirebasket", "cpp/qugar/reparam_mesh.cpp:check_edge_in_subdomain"]}
{"id": "C80", "title": "Hessians of Bezier and monomial polynomials", "statement": "hessian() returns the second derivatives of operator() in the order xx, xy, (xz,) yy, (yz, zz).", "quantifier": "every polynomial of dimension 1 to 3, any orders, any point", "why_tests_cant": "unbounded order, continuous input", "anchors": ["cpp/qugar/bezier_tp.cpp:hessian_", "cpp/qugar/bezier_tp_utils.cpp:evaluate_Bernstein", "cpp/qugar/monomials_tp.cpp:hessian_,evaluate_monomial_basis"]}
{"id": "C81", "title": "Bezier composition", "statement": "The composition of two Bezier polynomials evaluates to the outer polynomial at the value of the inner one.", "quantifier": "every outer polynomial (dimension 1 to 3) and inner map (dimension 1 to 3), any orders, any point", "why_tests_cant": "unbounded orders, continuous input", "anchors": ["cpp/qugar/bezier_tp_utils_composition.cpp:Bezier_composition,compose_with_Bernstein_bases_1D,compute_powers"]}
{"id": "C82", "title": "Constants and affine changes of the image of a Bezier polynomial", "statement": "A Bezier polynomial built from a constant takes that value everywhere; coefs_linear_transform(scale, shift) maps every value v to scale v + shift; transform_image maps the values from the old interval to the new one.", "quantifier": "every polynomial, scale, shift, intervals, point", "why_tests_cant": "continuous input", "anchors": ["cpp/qugar/polynomial_tp.cpp:PolynomialTP,coefs_linear_transform,transform_image"]}
{"id": "C83", "title": "Level-set and facet cells are oriented along the outer normal", "statement": "After orient_levelset_cells_positively every listed cell has, at its centre, a normal (rotated tangent in 2D, cross product of the tangents in 3D) with non-negative inner product with the gradient of the function of smallest value there; after orient_facet_cells_positively with the outer coordinate direction of the facet. Cells that already agreed are untouched, the others are flipped, the rest of the mesh is unchanged, repeating the call changes nothing, and a facet id out of range aborts.", "quantifier": "every valid mesh of curves in 2D or surfaces in 3D, every order, list of cells, non-empty list of functions, facet", "why_tests_cant": "unbounded meshes and orders, continuous coordinates", "anchors": ["cpp/qugar/impl_reparam_mesh.cpp:orient_levelset_cells_positively,orient_facet_cells_positively"]}
{"id": "C84", "title": "Scaling points of a mesh", "statement": "scale_points(old_box, new_box, ids) moves every listed point to the same relative position in the new box, leaves the others and the connectivity unchanged, and aborts on an id out of range.", "quantifier": "every mesh, boxes with the old one of positive size, every list of different ids", "why_tests_cant": "unbounded meshes, continuous coordinates", "anchors": ["cpp/qugar/reparam_mesh.cpp:scale_points"]}
{"id": "C85", "title": "Reparameterization of a region or of a level set in a box", "statement": "create_reparameterization of a non-Bezier function, applied to a box, always terminates normally (for all values of the function, all answers of interval arithmetic, all roots returned in the searched interval); it keeps the points, cells and wires of the mesh, appends whole cells on new points of the box that no other cell uses, appends exactly the edges of the new cells on edges of the box or on faces of the box and the level set, and the mesh stays valid, for any sequence of boxes.", "quantifier": "every function, interval extension, root finder, order, box with sides above 1e-5, in 2D and 3D, every valid mesh and sequence of boxes", "why_tests_cant": "the recursion over subdivisions, pruning and dimension reduction depends on all values of a function", "anchors": ["cpp/qugar/impl_reparam_general.cpp:reparameterize,ImplReparamGeneral", "cpp/qugar/impl_reparam_mesh.cpp:generate_wirebasket"]}
{"id": "C86", "title": "Reparameterization of a facet of a box", "statement": "reparameterize_facet always terminates normally, appends whole cells whose points lie exactly on the facet and in the box, with their wires, and keeps the mesh valid; a facet id out of range aborts.", "quantifier": "every function, interval extension, root finder, order, box, facet, in 2D and 3D, every valid mesh", "why_tests_cant": "same recursion, restricted to the facet", "anchors": ["cpp/qugar/impl_reparam_general.cpp:reparameterize_facet,create_facet_mask"]}
{"id": "C87", "title": "Orientation of the reparameterized cells", "statement": "The cells created by a reparameterization have non-negative Jacobian (region), normal along the gradient (level set), or outward normal (facet) at their centre.", "quantifier": "every function, order, box, facet, in 2D and 3D, every valid mesh", "why_tests_cant": "all geometries", "anchors": ["cpp/qugar/impl_reparam_general.cpp:orient_cells,reparameterize_facet"]}
{"id": "C88", "title": "Boxes on one side of the function", "statement": "If interval arithmetic proves the function positive in the box nothing is added; if negative, the region is one cell, the lattice of nodes of the box, and nothing is added to a level set.", "quantifier": "every function, order, box, in 2D and 3D, every valid mesh", "why_tests_cant": "all functions and boxes", "anchors": ["cpp/qugar/impl_reparam_general.cpp:construct,reparameterize"]}
{"id": "C89", "title": "Reparameterization of an unfitted domain", "statement": "create_reparameterization(domain, cells, n_pts_dir) without merging terminates normally for all cells of the domain; the returned mesh is valid, has the requested order, and consists of the reparameterizations of the requested cut cells, each inside the box of its cell, in increasing order of the cells, then (unless the level set is requested) one lattice cell with all its edges for every requested full cell; without a list of cells, of all cut and all full cells exactly once; an order below 2 aborts.", "quantifier": "every built domain in 2D and 3D with cells larger than 1e-5, every list of cells (repeated, unsorted), every order, function, root finder, interval extension", "why_tests_cant": "unbounded grids, all functions, all selections of cells", "anchors": ["cpp/qugar/impl_reparam.cpp:create_reparameterization", "cpp/qugar/unfitted_domain.cpp:get_cut_cells,get_full_cells", "cpp/qugar/reparam_mesh.cpp:add_full_cells"]}
{"id": "C90", "title": "Merging the points of a reparameterized domain", "statement": "With merge_points the mesh stays valid and keeps its cells; its points are points of the unmerged mesh, no two of them coincide up to 1e4 eps, and a cell point only moves along points that coincide up to the tolerance.", "quantifier": "as C89, every sorting algorithm", "why_tests_cant": "unbounded meshes, continuous coordinates", "anchors": ["cpp/qugar/impl_reparam.cpp:create_reparameterization", "cpp/qugar/reparam_mesh.cpp:merge_coincident_points"]}
{"id": "C91", "title": "Gauss rules integrate polynomials of degree 2n-1", "statement": "For every number of points n from 1 to 100 the Gauss table has n increasing points strictly inside (0,1), positive weights and is symmetric; the rule that create_Gauss builds on a box integrates every polynomial of degree less than 2n in each direction, up to 1e-14 times the volume and the coefficients.", "quantifier": "every number of points 1..100 per direction, every box, every polynomial of those degrees (arbitrary real coefficients), dimensions 1 to 3", "why_tests_cant": "infinitely many boxes and polynomials; a wrong digit in one of 20200 literals", "anchors": ["cpp/qugar/quadrature_lib.cpp:Gauss::get_quad_data", "cpp/qugar/quadrature.cpp:create_Gauss,create_tp_quadrature,get_abscissa_,get_weight_"]}
{"id": "C92", "title": "Tanh-sinh rules integrate affine functions", "statement": "For every number of points n from 1 to 100 the tanh-sinh table has n increasing points strictly inside (0,1), positive weights adding up to 1 and is symmetric; the rule create_tanh_sinh builds on a box integrates every function affine in each direction up to 1e-30.", "quantifier": "every number of points 1..100 per direction, every box, every multi-affine function, dimensions 1 to 3", "why_tests_cant": "infinitely many boxes and functions; a wrong digit in one of 20200 literals", "anchors": ["cpp/qugar/quadrature_lib.cpp:TanhSinh::get_quad_data", "cpp/qugar/quadrature.cpp:create_tanh_sinh,create_tp_quadrature"]}
{"id": "C93", "title": "Quadratures of full cells integrate polynomials", "statement": "For a full cell of an unfitted domain the quadrature generated with n points per direction integrates every polynomial (in coordinates of the unit cell) of degree less than 2n in each direction up to 1e-14 times its coefficients, whatever calls were made before.", "quantifier": "every built domain in 2D and 3D, every full cell, every n from 1 to 100, every history of quadrature calls, every polynomial", "why_tests_cant": "unbounded domains and histories (cached rules), all polynomials", "anchors": ["cpp/qugar/impl_quadrature.cpp:create_cell_quadrature", "cpp/qugar/quadrature_lib.cpp:Gauss::get_quad_data"]}
{"id": "C94", "title": "Bezier function without zeros in the box", "statement": "If the polynomial has no zero in the box, reparam_Bezier adds nothing for the level set, one cell filling the box if the polynomial is negative and nothing if it is positive.", "quantifier": "every polynomial without zeros, every box, order, mesh and dimension 2 or 3", "why_tests_cant": "all polynomials and boxes", "anchors": ["cpp/qugar/impl_reparam_bezier.cpp:create,reparam_tensor_product,reparameterize"]}
{"id": "C95", "title": "Bezier reparameterization appends a valid region", "statement": "Whenever reparam_Bezier returns, the mesh is valid, keeps its points, cells and wires, and has gained whole cells on new points that no two new cell positions share and that lie inside the requested box, together with the wires of those cells.", "quantifier": "every polynomial, every behaviour of masks, discriminants, eliminations and of a root finder with roots in [0,1], every box, order and mesh, region or level set, 2D and 3D", "why_tests_cant": "recursion over dimensions with data-dependent intervals; all polynomials", "anchors": ["cpp/qugar/impl_reparam_bezier.cpp:build,compute_all_intervals,compute_ref_intervals,compute_similar_intervals,process,reparam,reparameterize", "cpp/qugar/reparam_mesh.cpp:scale_points"]}
{"id": "C96", "title": "Bezier reparameterization always returns", "statement": "reparam_Bezier terminates normally for every polynomial: no assertion fails, no key is missing and no out of range component is accessed.", "quantifier": "as C95", "why_tests_cant": "needs every polynomial and every root configuration; the failing one is found by proof, not by sampling", "anchors": ["cpp/qugar/impl_reparam_bezier.cpp:compute_similar_intervals,compute_ref_intervals,check_all_ref_intervals_inactive"]}
{"id": "C97", "title": "Reparameterization of a Bezier domain", "statement": "Whenever create_reparameterization of a domain with a Bezier function returns, the mesh is valid and consists of the reparameterizations of exactly the requested cut cells, in increasing order, each inside its box, then one lattice cell for each requested full cell; it never throws, it always returns, and merging is merge_coincident_points of that mesh.", "quantifier": "every built domain in 2D and 3D, every list of cells, every polynomial and order, region or level set, merged or not", "why_tests_cant": "unbounded grids and lists of cells, all polynomials", "anchors": ["cpp/qugar/impl_reparam.cpp:reparam_cut_cells,create_reparameterization"]}
{"id": "C98", "title": "Points of the level set mesh lie on the level set", "statement": "Every point that reparam_general adds for the level set lies in the box and the level set function vanishes there up to a small multiple of the tolerance.", "quantifier": "every function, every box, order and mesh; exact root finder and correct interval information", "why_tests_cant": "all functions and boxes; the fallback on reference roots is reached only on thin sets of functions", "anchors": ["cpp/qugar/impl_reparam_general.cpp:compute_similar_roots,compute_all_intervals,process"]}
{"id": "C99", "title": "Points of the region mesh lie in the region", "statement": "Every point that reparam_general adds for the region lies in the box and the function is at most a small multiple of the tolerance there, except in boxes of the last subdivision level, whose centre is in the region.", "quantifier": "as C98", "why_tests_cant": "as C98", "anchors": ["cpp/qugar/impl_reparam_general.cpp:compute_similar_roots,check_active_interval,process"]}
{"id": "C100", "title": "Points of a facet mesh lie in the region", "statement": "Every point that reparam_general_facet adds lies exactly on the facet and the function is at most a small multiple of the tolerance there (for a face in 3D, except in boxes of the last subdivision level whose face centre is in the region).", "quantifier": "every function, every facet of every box in 2D and 3D, order and mesh", "why_tests_cant": "as C98", "anchors": ["cpp/qugar/impl_reparam_general.cpp:reparameterize_facet,compute_all_intervals,process"]}
{"id": "C101", "title": "The status of every cell is justified by the function", "statement": "Every cell of the domain of a function is exactly one of full, empty and cut; a full cell has a function negative everywhere in the cell or samples that fill the cell (to 10 eps), an empty cell has a function positive everywhere or samples of volume zero, and a cut cell has samples that neither vanish nor fill it. This holds for general functions; for Bezier polynomials in every grid (refuted: outside of the unit box).", "quantifier": "every function (general or Bezier), grid, iteration order of the map, and every behaviour of the sampling library", "why_tests_cant": "quantifies over all functions, grids and rules; the wrong case needs a polynomial of constant sign in the unit box and a grid that leaves it", "anchors": ["cpp/qugar/impl_unfitted_domain.cpp:create_compute_sign_function,classify_cell,classify_cell_Bezier,classify_cell_general"]}
{"id": "C102", "title": "The status of every facet of a cut cell is justified by the function", "statement": "For every cut cell: a facet on which the function is not negative is reported empty and without unfitted or external boundary, a facet on which it is negative beyond the tolerance is reported full; a facet that lies in the zero set, with the domain on the inner side, is reported as unfitted boundary (refuted for polynomials).", "quantifier": "every function (general or Bezier), grid of dimension 2 or more, cut cell and facet", "why_tests_cant": "as the previous property", "anchors": ["cpp/qugar/impl_unfitted_domain.cpp:classify_facet,classify_facet_Bezier,classify_facet_general,classify_facet_from_quad"]}
{"id": "C103", "title": "The VTK files hold the reparameterization", "statement": "write_VTK_file writes one unstructured grid for the cells and one for the wirebasket edges. A reader finds there: the right declared numbers, every point (with 0 for the missing coordinates), and for every cell or edge its VTK cell type and its points, each at the position VTK assigns to it; every id is that of a point of the file.", "quantifier": "every valid mesh of dimension 1 to 3 in a space of dimension 1 to 3, every order and file name", "why_tests_cant": "unbounded meshes and all orders; the numbering of VTK differs from the one of the mesh in every order and dimension", "anchors": ["cpp/qugar/reparam_mesh.cpp:write_reparam_to_VTK_cells,get_VTK_cell_type,create_VTU_conn_mask,write_VTK_file"]}
{"id": "C104", "title": "The multi-block file refers to the written grids", "statement": "The two blocks of the multi-block file, resolved as VTK does (relative to the directory of that file), are the two grid files that were written (refuted for relative names with a directory; proved for names without directory and absolute names).", "quantifier": "every mesh and every file name without double quotes", "why_tests_cant": "quantifies over all file names; a test that writes in the current directory cannot see it", "anchors": ["cpp/qugar/reparam_mesh.cpp:write_VTK_file"]}
{"id": "C105", "title": "Points of a Bezier level set mesh lie on the level set", "statement": "When reparam_Bezier returns for the level set of a polynomial, the absolute value of the polynomial at every point that was added (in the unit box where they are computed) is at most a small multiple of the tolerance times the slope of the polynomial.", "quantifier": "every polynomial in 2D and 3D, order, mesh and domain box", "why_tests_cant": "quantifies over all polynomials; the point depends on the elimination hierarchy, on the matching of roots along different lines and on all the fallbacks", "anchors": ["cpp/qugar/impl_reparam_bezier.cpp:compute_similar_roots,compute_all_intervals,check_active_interval,process"]}
{"id": "C106", "title": "Points of a Bezier region mesh lie in the region", "statement": "When reparam_Bezier returns for the region where a polynomial is negative, the polynomial at every point that was added is at most a small multiple of the tolerance times the slope of the polynomial.", "quantifier": "every polynomial in 2D and 3D, order, mesh and domain box", "why_tests_cant": "as C105", "anchors": ["cpp/qugar/impl_reparam_bezier.cpp:point_is_inside,compute_similar_roots,compute_all_intervals,check_active_interval,process"]}
{"id": "C107", "title": "Bezier reparameterizations in the plane have exactly the cells of the layers", "statement": "When reparam_Bezier returns in 2D for a polynomial whose zeros form graphs over the pieces of the base (separated by more than the tolerance at the middle of each piece), the number of cells added for the region is the number of layers where the polynomial is negative, over all pieces, and the number added for the level set is the number of graphs at which the sign changes: no layer or branch is missed or repeated.", "quantifier": "every polynomial with such layers, any number of pieces and branches, order, mesh and domain box", "why_tests_cant": "quantifies over all polynomials and hierarchies; a missed or repeated cell shows only for particular arrangements of roots", "anchors": ["cpp/qugar/impl_reparam_bezier.cpp:compute_ref_intervals,check_all_ref_intervals_inactive,compute_all_intervals,process"]}
{"id": "C108", "title": "The mesh of a level set reaches the faces of the box that it crosses", "statement": "When the level set function takes a value clearly below zero and one clearly above zero on a face of the box, the mesh that reparam_general returns for its level set has a point on that face: no part of the level set next to the face is lost (refuted in 3D, where the signs of the restrictions are taken from the gradient of the first function; proved in 2D for the faces across the height direction).", "quantifier": "every level set function in 2D and 3D, box, order and face", "why_tests_cant": "quantifies over all functions; the loss needs a second restriction whose gradient has the opposite sign of the first one, which simple test surfaces do not have", "anchors": ["cpp/qugar/impl_reparam_general.cpp:determineSigns,compute_all_intervals,check_active_interval,process"]}
{"id": "C109", "title": "The vertices of the box in the region are points of its mesh", "statement": "When the level set function is negative at a vertex of the box, the mesh that reparam_general returns for the region where the function is negative has this vertex among its points: the corner of the region is not lost (refuted in 3D; proved in 2D when the boundary stays away from the two sides in the height direction).", "quantifier": "every level set function in 2D and 3D, box, order and vertex", "why_tests_cant": "quantifies over all functions; the loss needs a second restriction whose gradient has the opposite sign of the first one, and nothing is reported when a corner is missing", "anchors": ["cpp/qugar/impl_reparam_general.cpp:determineSigns,compute_all_intervals,check_active_interval,process,tensor_product_reparam_full"]}
{"id": "C110", "title": "Node orders of the reference cells are the documented ones and their renumberings are inverse", "statement": "DOLFINx_to_lexicg_nodes and VTK_to_lexicg_nodes list the nodes of the interval, quadrilateral and hexahedron of any degree in the order of basix and of VTK (vertices, edges, faces, interior) as positions in the lexicographical order; they are permutations, and lexicg_to_DOLFINx_nodes, lexicg_to_VTK_nodes, DOLFINx_to_VTK_nodes and VTK_to_DOLFINx_nodes are their inverses and compositions.", "quantifier": "every dimension 1 to 3 and every degree >= 1", "why_tests_cant": "the degree is unbounded; tests look at a few low degrees", "anchors": ["python/qugar/mesh/utils.py:VTK_to_lexicg_nodes,lexicg_to_VTK_nodes,DOLFINx_to_lexicg_nodes,lexicg_to_DOLFINx_nodes,DOLFINx_to_VTK_nodes,VTK_to_DOLFINx_nodes"]}
{"id": "C111", "title": "The Python package and the C++ writer agree on the VTK order of nodes", "statement": "The permutation VTK_to_lexicg_nodes of the Python package is the one the C++ VTK writer uses for its connectivity, so that meshes written by either are read the same way (refuted for hexahedra of degree 2 or more).", "quantifier": "every dimension 1 to 3 and every degree >= 1", "why_tests_cant": "the two are in different languages and no test compares them", "anchors": ["python/qugar/mesh/utils.py:_VTK_to_lexicg_3D_nodes", "cpp/qugar/vtk_utils.cpp:create_VTU_conn_mask"]}
{"id": "C112", "title": "Tensor-product indices: flat and tensor indices, corners, faces and edges", "statement": "TensorProdIndex.get_flat_index and get_tensor_index are inverse bijections in any dimension, the first direction varying fastest; get_corner gives the index at the ends the bits of the corner say; get_face and get_edge (lexicographical numbering) list exactly the indices of the face or edge, in increasing order.", "quantifier": "every grid with at least one index per direction, every index, corner, face and edge", "why_tests_cant": "quantifies over all grid sizes", "anchors": ["python/qugar/mesh/tp_index.py:get_flat_index,get_tensor_index,get_corner,get_all_corners,get_face,get_edge"]}
{"id": "C113", "title": "Faces and edges are numbered as in DOLFINx and VTK", "statement": "With lexicg=False, face and edge number i of TensorProdIndex hold the indices between the vertices of face and edge i of the basix reference cell; the conversion tables to DOLFINx and VTK numbering are the geometric ones and inverse to each other (refuted: edges 4 and 6 of hexahedra are swapped; the VTK faces 0 to 4 of hexahedra are permuted).", "quantifier": "every grid in 1D to 3D, every face and edge", "why_tests_cant": "quantifies over all grids; an exchanged pair of edges is not seen on symmetric grids and data", "anchors": ["python/qugar/mesh/tp_index.py:get_face,get_edge", "python/qugar/mesh/utils.py:lexicg_to_DOLFINx_faces,DOLFINx_to_lexicg_faces,lexicg_to_VTK_faces,VTK_to_lexicg_faces,lexicg_to_DOLFINx_edges,DOLFINx_to_lexicg_edges"]}
{"id": "C114", "title": "Internal and boundary indices of a grid", "statement": "TensorProdIndex.get_all_internal returns exactly the indices at no end of a direction and get_all_faces exactly the others (refuted: in 3D get_all_internal raises or loses indices on grids with four or more indices in the last two directions; get_all_faces repeats indices when a direction has a single one).", "quantifier": "every grid in 1D to 3D", "why_tests_cant": "quantifies over all grid sizes; small grids (three indices) hide the error", "anchors": ["python/qugar/mesh/tp_index.py:get_all_internal,get_all_faces"]}
{"id": "C115", "title": "Operations on lists of facets are the set operations", "statement": "MeshFacets.unique, intersect and difference return the facets of the set, the intersection and the difference, in increasing order without repetitions (with assume_unique also, for lists without repetitions); concatenate appends; find returns a position of each facet and raises when one is missing; as_array interleaves cells and local facets.", "quantifier": "every list of facets, with repetitions and in any order", "why_tests_cant": "quantifies over all lists", "anchors": ["python/qugar/mesh/mesh_facets.py:unique,concatenate,intersect,difference,find,as_array"]}
{"id": "C116", "title": "Facets of a mesh from their ids; exterior, interior and all facets", "statement": "create_facets_from_ids gives for each facet id its cell and local facet (one, or one per cell), get_facet_ids inverts it; create_exterior_mesh_facets, create_interior_mesh_facets and create_all_mesh_facets give the exterior, the interior and all facets owned by the process (refuted: the last two take global ids for local ones on every process but the first).", "quantifier": "every mesh topology, every list of facet ids, every process of a distributed mesh", "why_tests_cant": "quantifies over all meshes and partitions; serial tests always have the local range starting at zero", "anchors": ["python/qugar/mesh/mesh_facets.py:create_facets_from_ids,create_exterior_mesh_facets,create_interior_mesh_facets,create_all_mesh_facets,get_facet_ids"]}
{"id": "C117", "title": "Original and DOLFINx numberings of cells and nodes are inverse", "statement": "get_original_cell_ids and get_DOLFINx_local_cell_ids are inverse on the cells of the process, with or without inactive cells, the latter giving -1 exactly for cells that are inactive or in other processes; likewise for the nodes, up to merged nodes (refuted: a process without cells raises; with merged nodes the processes other than 0 do not know the map of merged nodes).", "quantifier": "every mesh, set of active cells, partition and renumbering, every list of ids", "why_tests_cant": "quantifies over all renumberings and partitions", "anchors": ["python/qugar/mesh/mesh.py:_find_in_array,get_DOLFINx_local_cell_ids,get_original_cell_ids,get_DOLFINx_local_node_ids,get_original_node_ids"]}
{"id": "C118", "title": "Merging of coincident nodes", "statement": "When a Mesh merges coincident nodes the search for masters terminates, each node is replaced by one it is chained to by coincident nodes, no two nodes that remain are coincident, the connectivity is renumbered accordingly, and two nodes are merged exactly when they are coincident (refuted when coincidence within the tolerance is not transitive, proved when it is).", "quantifier": "every list of nodes, connectivity and set of coincident pairs in any order", "why_tests_cant": "quantifies over all sets of pairs and orders in which they are found", "anchors": ["python/qugar/mesh/mesh.py:_merge_coincident_points_in_mesh"]}
{"id": "C119", "title": "Connectivity of tensor-product meshes", "statement": "The connectivity of a tensor-product mesh has one row per cell in lexicographical order; entry k of the row of a cell is the number of the grid point of its k-th node in basix' order; two cells share a node number exactly where their nodes are the same grid point, and every grid point is used.", "quantifier": "every dimension 1 to 3, every degree, every number of cells per direction", "why_tests_cant": "quantifies over all degrees and sizes; a wrong stride shows only on anisotropic grids of high degree", "anchors": ["python/qugar/mesh/tp_mesh.py:_create_first_cell_conn_Cartesian,_create_tensor_prod_mesh_conn"]}
{"id": "C120", "title": "Nodes of Cartesian meshes", "statement": "The coordinates of the k-th node of a cell of a Cartesian mesh are the equispaced positions of that node in the product of the intervals of the cell, through the connectivity and the coordinates given to DOLFINx.", "quantifier": "every 2D and 3D mesh, every degree, all breaks", "why_tests_cant": "quantifies over all degrees, sizes and breaks", "anchors": ["python/qugar/mesh/tp_mesh.py:_create_Cartesian_mesh_nodes_from_points,_create_Cartesian_mesh_nodes_from_cells"]}
{"id": "C121", "title": "Bounding box of a cell of a Cartesian mesh", "statement": "get_cell_bbox and get_cell_tensor_index of a local cell id give the box and the tensor index of the original cell (refuted: with a scalar id, as documented, they always raise; with an array of one id they are right).", "quantifier": "every mesh, partition, set of active cells and local cell", "why_tests_cant": "quantifies over all meshes and partitions", "anchors": ["python/qugar/mesh/tp_mesh.py:get_cell_tensor_index,get_cell_bbox"]}
{"id": "C122", "title": "Facets of the faces of a tensor-product mesh", "statement": "get_face_facets returns, sorted and once each, the facets of the process on the given face of the mesh, and create_facet_bdry_tags marks them with the number of the face (refuted: the lexicographical face number is used as DOLFINx' local facet number; right only in 1D and for the last face in 2D and 3D; the cells touching the face are right).", "quantifier": "every tensor-product mesh, partition, set of active cells, every face", "why_tests_cant": "quantifies over all meshes and partitions and over all faces", "anchors": ["python/qugar/mesh/tp_mesh.py:get_face_DOLFINx_cells,get_face_facets,create_facet_bdry_tags"]}
{"id": "C123", "title": "create_Cartesian_mesh creates a mesh", "statement": "create_Cartesian_mesh returns a mesh for every valid box, number of cells, degree and ghost mode (refuted: it hands over the ghost mode as the active cells, and raises for all arguments).", "quantifier": "every argument", "why_tests_cant": "a claim about all arguments: no call succeeds", "anchors": ["python/qugar/mesh/tp_mesh.py:create_Cartesian_mesh,CartesianMesh.__init__", "python/qugar/mesh/mesh.py:_create_mesh"]}
{"id": "C124", "title": "Cells of an unfitted domain on a process", "statement": "get_cut_cells, get_full_cells and get_empty_cells of a Python unfitted domain return, sorted and without repetitions, exactly the local ids of the cells owned by the process whose original cell is cut, full or empty in the C++ object; each owned cell is in exactly one list, whatever the renumbering, ghosts and inactive cells.", "quantifier": "every domain, partition, renumbering of the cells and set of active cells, also a process without cells", "why_tests_cant": "quantifies over all partitions and renumberings and all domains", "anchors": ["python/qugar/mesh/unfitted_domain.py:_get_cells,get_cut_cells,get_full_cells,get_empty_cells", "python/qugar/mesh/mesh.py:get_all_original_cell_ids"]}
{"id": "C125", "title": "Facets of the mesh and of the C++ domain", "statement": "to_original and to_DOLFINx on MeshFacets are inverse and preserve the side of the cell; the facets selected through a query of the C++ object are exactly the owned facets of the requested type for which it answers yes, each (cell, facet) pair once (on a process whose global facet numbering starts at 0, see C116).", "quantifier": "every mesh, renumbering, domain, query and facet type", "why_tests_cant": "quantifies over all meshes, renumberings and domains", "anchors": ["python/qugar/mesh/mesh_facets.py:to_original,to_DOLFINx", "python/qugar/mesh/unfitted_domain.py:_get_facets"]}
{"id": "C126", "title": "Lists of facets for exterior and interior integrals", "statement": "For exterior integrals get_cut_facets, get_full_facets and get_empty_facets hold the documented facets, every exterior facet in exactly one and interior facets exactly if they carry unfitted boundary; for interior integrals every interior facet is in exactly one list (refuted: interior facets that are not cut but carry a piece of unfitted boundary are in none of the three lists).", "quantifier": "every mesh, domain and facet", "why_tests_cant": "quantifies over all domains and combinations of facet states", "anchors": ["python/qugar/mesh/unfitted_domain.py:_get_cut_facets_ext_integral,_get_full_facets_ext_integral,_get_empty_facets_ext_integral,_get_cut_facets_int_integral,_get_full_facets_int_integral,_get_empty_facets_int_integral"]}
{"id": "C127", "title": "The lists of facets do not depend on the history of calls", "statement": "Any sequence of calls of get_cut_facets, get_full_facets and get_empty_facets returns for each call the list that a new object would return (refuted: get_empty_facets for interior integrals overwrites the cached cut facets; proved for all other sequences, and for domains without interior facets that carry unfitted boundary without being cut).", "quantifier": "every finite sequence of calls with either kind of integral, every mesh and domain", "why_tests_cant": "a claim about all call histories of an object with caches", "anchors": ["python/qugar/mesh/unfitted_domain.py:get_cut_facets,get_full_facets,get_empty_facets"]}
{"id": "C128", "title": "get_all_facets", "statement": "get_all_facets for exterior integrals holds each exterior facet and each facet with unfitted boundary exactly once; for interior integrals it holds exactly the remaining facets of the process.", "quantifier": "every mesh and domain", "why_tests_cant": "quantifies over all domains", "anchors": ["python/qugar/mesh/unfitted_domain_abc.py:get_all_facets"]}
{"id": "C129", "title": "Tags of facets", "statement": "create_facet_tags lists under each given tag exactly the facets of the classes with that tag, once each (refuted for the empty facets, which are listed under the tag of the cut ones, or under None, and never under their own; proved without tag for the empty facets, also when cut and full facets share the tag).", "quantifier": "every mesh, domain, combination of tags and kind of integral", "why_tests_cant": "quantifies over all tags and domains", "anchors": ["python/qugar/mesh/unfitted_domain_abc.py:create_facet_tags"]}
{"id": "C130", "title": "Tags of cells", "statement": "create_cell_meshtags creates tags with strictly increasing cell ids in which each cell of a class with a tag, and no other, has that tag.", "quantifier": "every disjoint lists of cells, every combination of tags, every (also unstable) argsort", "why_tests_cant": "quantifies over all lists and sorting orders", "anchors": ["python/qugar/mesh/unfitted_domain_abc.py:create_cell_meshtags"]}
{"id": "C131", "title": "Number of Gauss points", "statement": "get_num_Gauss_points returns the smallest positive number of points per direction whose Gauss-Legendre rule is exact for the requested degree, and raises for negative degrees.", "quantifier": "every degree", "why_tests_cant": "quantifies over all degrees", "anchors": ["python/qugar/mesh/unfitted_domain.py:get_num_Gauss_points"]}
{"id": "C132", "title": "Points on grid lines", "statement": "For every point of the grid domain and every tolerance, at_cells_boundary returns without failure the first direction in which the point is within the tolerance of a grid line other than the two ends of the grid, and no direction exactly when there is none (when all spans are longer than twice the tolerance; the exact condition is given otherwise).", "quantifier": "every grid, point and tolerance", "why_tests_cant": "quantifies over all grids, points and tolerances", "anchors": ["cpp/qugar/cart_grid_tp.cpp:at_cells_boundary"]}
{"id": "C133", "title": "Points of the unfitted boundary kept by a cut cell", "statement": "The unfitted boundary rule of a cut cell consists of the nodes produced by the quadrature library, transformed and in order, without exactly those that lie on a facet with an unfitted boundary (within tolerance), have a normal along the direction of the facet and a function value of zero; for Bezier functions the node keeps its weight, its directions are reversed and its normal is the unit gradient.", "quantifier": "every built domain, cut cell, function, number of points", "why_tests_cant": "quantifies over all domains and all outputs of the quadrature library", "anchors": ["cpp/qugar/impl_quadrature.cpp:purge_facet_points,create_cell_unfitted_bound_quadrature,compute_quadrature_with_algoim_Bezier"]}
{"id": "C134", "title": "Cut cells of Bezier functions only get points inside", "statement": "For a Bezier function the rule of a cut cell contains exactly the nodes of the quadrature library at which the polynomial restricted to the cell is negative, with their weights and in order, so every point is strictly inside the domain.", "quantifier": "every built domain, cut cell, Bezier function, number of points", "why_tests_cant": "quantifies over all domains and all outputs of the quadrature library", "anchors": ["cpp/qugar/impl_quadrature.cpp:compute_quadrature_with_algoim_Bezier"]}
{"id": "C135", "title": "Custom coefficients: the right kernel with the right data", "statement": "For every integral over cells or exterior facets, pack_coefficients returns an array from which the generated function, on every entity, runs the custom kernel with exactly the points, weights and normals of that entity's quadrature rules (one per integrand) if the entity is cut, the original kernel if it is full, and nothing if it is empty; the entity's own coefficients are unchanged at the start of its row.", "quantifier": "every list of entities, classification, list of integrands, quadratures, number of coefficients, scalar type", "why_tests_cant": "the layout (offsets, padding of offsets, extra rows, headers) must be right for every number of entities, points and integrands", "anchors": ["python/qugar/dolfinx/custom_coefficients.py:_CustomCoeffsPacker", "python/qugar/dolfinx/codegeneration.py:_create_new_function"]}
{"id": "C136", "title": "Updating coefficients keeps the custom data", "statement": "After any history of update_coefficients the generated function still runs the right kernel with the right data on every entity, and finds the latest coefficients.", "quantifier": "every packed array and every sequence of updates", "why_tests_cant": "quantifies over histories of updates", "anchors": ["python/qugar/dolfinx/custom_coefficients.py:update_coefficients"]}
{"id": "C137", "title": "Custom coefficients of interior facets", "statement": "The same as for exterior facets holds over interior facets, with the same facet points placed in both cells. (False when there are empty facets.)", "quantifier": "every list of interior facets, classification and quadratures", "why_tests_cant": "quantifies over all lists of facets", "anchors": ["python/qugar/dolfinx/custom_coefficients.py:_compute_offsets"]}
{"id": "C138", "title": "Coefficients of both sides of an interior facet", "statement": "In a custom integral over interior facets the kernels find the coefficients of both sides of the facet one after the other behind their pointer, as DOLFINx lays them out. (False.)", "quantifier": "every integral over interior facets with coefficients", "why_tests_cant": "quantifies over all integrals", "anchors": ["python/qugar/dolfinx/custom_coefficients.py:_allocate_new_coeffs,_compute_offsets"]}
{"id": "C139", "title": "Position of the offset", "statement": "The generated function looks for the offset at the position where the packer writes it, right after the values of all the coefficients. (False over interior facets with more than one coefficient.)", "quantifier": "every list of coefficients", "why_tests_cant": "quantifies over all lists of coefficients and their dimensions", "anchors": ["python/qugar/dolfinx/codegeneration.py:_compute_coeffs_offset", "python/qugar/dolfinx/custom_coefficients.py:_compute_offsets"]}
{"id": "C140", "title": "Facet points in the reference cell", "statement": "map_facets_points puts every point of the closed reference facet on the given facet of the closed reference cell, the vertices on the vertices in the order of basix, different points at different places; no entry of the result is left uninitialised.", "quantifier": "every cell type, list of points and list of facets", "why_tests_cant": "quantifies over all points and all lists of facets", "anchors": ["python/qugar/dolfinx/custom_quad_utils.py:map_facets_points,_map_single_facet_points"]}
{"id": "C141", "title": "Symmetries of facet points", "statement": "permute_facet_points applies to every point the symmetry of the reference facet with the number DOLFINx gives, in the order of FFCx' tables. (False for two of the eight symmetries of quadrilateral facets: it raises.)", "quantifier": "every cell type, mesh, list of points, cells and facets", "why_tests_cant": "quantifies over all points and all facets of all meshes", "anchors": ["python/qugar/dolfinx/custom_quad_utils.py:permute_facet_points,_permute_points,_create_permutation_operators"]}
{"id": "C142", "title": "Element tensor of a cut entity", "statement": "The generated kernel of a custom integral adds to the element tensor the sum over the quadrature points of the entity of the integrand with the basis functions (and derivatives) evaluated at these points, without undefined behaviour, whatever kernels, threads' scratch memory, registrations and resets came before, when one quadrature of the integral has tables that vary and the static rules have at least two points.", "quantifier": "every integral (elements, mixed or vector-valued, derivatives, both sides of interior facets, mixed dimensions), number of points, and history of the shim", "why_tests_cant": "quantifies over all forms, points and histories", "anchors": ["python/qugar/dolfinx/codegeneration.py:_create_custom_data_callers,_create_custom_function", "python/qugar/dolfinx/fe_table.py:create_new_access_code", "python/qugar/dolfinx/_shim/qugar_basix_shim.cpp"]}
{"id": "C143", "title": "Integrals with several quadratures", "statement": "The same holds when several quadratures of an integral have tables that vary, as in f*v*dx + g*v*ds_bdry_unf. (False: they share one scratch vector.)", "quantifier": "every integral with any number of quadratures", "why_tests_cant": "quantifies over all forms and all points", "anchors": ["python/qugar/dolfinx/codegeneration.py:_create_custom_data_callers", "python/qugar/dolfinx/_shim/qugar_basix_shim.cpp:get_scratch_impl"]}
{"id": "C144", "title": "Second side of interior facets", "statement": "In integrals over interior facets the functions of each side are evaluated at the points of the facet seen from that side. (False for static rules of one point.)", "quantifier": "every integral over interior facets", "why_tests_cant": "quantifies over all forms and all points", "anchors": ["python/qugar/dolfinx/fe_table.py:create_new_access_code", "python/qugar/dolfinx/codegeneration.py:_create_custom_data_callers"]}
{"id": "C145", "title": "Static rules of one point", "statement": "An integral of low degree, whose static rule has one point, uses on cut entities the basis functions at each custom point. (False: those of the first point are used at all of them.)", "quantifier": "every integral whose static rule has one point", "why_tests_cant": "quantifies over all forms and all points", "anchors": ["python/qugar/dolfinx/fe_table.py:is_constant_for_pts,create_new_access_code"]}
{"id": "C146", "title": "Registry of elements", "statement": "Registering an element gives a handle; until a reset the same element keeps its handle, different elements have different handles, and the handle tabulates its element; elements that basix rejects give -1, handles never given give an error, and both change nothing.", "quantifier": "every history of registrations, scratch requests, tabulations, writes and resets", "why_tests_cant": "quantifies over all histories of calls", "anchors": ["python/qugar/dolfinx/_shim/qugar_basix_shim.cpp:register_impl,tabulate_impl,qugar_shim_reset"]}
{"id": "C147", "title": "Component of an element in a table", "statement": "For every element, also nested mixed and blocked ones, the table of a component is computed with the basix element and value component of that component, and the derivative is read at its place in the tabulation whatever the highest order tabulated.", "quantifier": "every element, component, derivative and order", "why_tests_cant": "quantifies over all (recursively built) elements", "anchors": ["python/qugar/dolfinx/codegeneration.py:_resolve_mixed_component,_table_codegen_info"]}
{"id": "C148", "title": "Degree of each integral", "statement": "The custom quadrature of each integral of a form is generated with the degree given for that integral. (False for two unfitted-boundary integrals.)", "quantifier": "every form", "why_tests_cant": "quantifies over all forms", "anchors": ["python/qugar/dolfinx/quadrature_data.py:extract_quadrature_data", "python/qugar/dolfinx/boundary.py:_create_custom_metadata"]}
{"id": "C149", "title": "From quadrature rules to the element tensor", "statement": "For custom integrals over cells or exterior facets, packing the coefficients, the generated function and the generated kernel together add to the element tensor of every cut entity the quadrature sum with the rule of that entity.", "quantifier": "every list of entities, classification, rules, coefficients, form with one quadrature with varying tables, and history of the shim", "why_tests_cant": "quantifies over all meshes, rules, forms and histories", "anchors": ["python/qugar/dolfinx/custom_coefficients.py", "python/qugar/dolfinx/codegeneration.py", "python/qugar/dolfinx/_shim/qugar_basix_shim.cpp"]}
{"id": "C150", "title": "Versions of the dependencies", "statement": "A version of DOLFINx, Basix, FFCx or UFL is accepted when it is between the bounds in the order of versions. (False for ranges over several majors, and versions with a suffix raise an error.)", "quantifier": "every version and range", "why_tests_cant": "quantifies over all versions", "anchors": ["python/qugar/utils.py:check_version_in_range,_compare_version_le,_compare_version_lt,_extract_version"]}
{"id": "C151", "title": "Lists of forms", "statement": "form_custom on a (nested) list of forms gives the list of the compiled forms. (False: it gives the empty list.)", "quantifier": "every list of forms", "why_tests_cant": "quantifies over all (nested) lists", "anchors": ["python/qugar/dolfinx/forms.py:form_custom,_flatten_list,_create_form"]}
{"id": "C152", "title": "Regions of the integrals of a form", "statement": "In a compiled form each integral is integrated over exactly the entities asked for: those with its tags, or all exterior facets of the unfitted domain for an exterior integral without id. (False with tuples of ids.)", "quantifier": "every form, tags and subdomain ids", "why_tests_cant": "quantifies over all forms and tags", "anchors": ["python/qugar/dolfinx/forms.py:_form,_modify_ext_facet_everywhere_integrals,_restore_ext_facet_everywhere_integrals"]}
{"id": "C153", "title": "Compiling a form leaves the forms as they were", "statement": "After form_custom, also if it raises, the form and other forms sharing its integrals are as before. (False: the subdomain data are lost, a raising call leaves the form changed, and forms sharing integrals are changed.)", "quantifier": "every form and every way the call ends", "why_tests_cant": "quantifies over all forms, histories and errors", "anchors": ["python/qugar/dolfinx/forms.py:_form,_modify_ext_facet_everywhere_integrals,_restore_ext_facet_everywhere_integrals"]}
{"id": "C154", "title": "Coefficients of a nonlinear problem", "statement": "In a nonlinear problem every assembly of the residual or of the Jacobian uses the coefficients packed for the current values, whatever the order of the assemblies. (False for lists of forms: the second assembly raises.)", "quantifier": "every sequence of assemblies and of changes of the coefficients", "why_tests_cant": "quantifies over all histories of calls", "anchors": ["python/qugar/dolfinx/petsc.py:NonlinearProblem._get_b_coeffs,NonlinearProblem._get_A_coeffs,_update_coefficients"]}
{"id": "C155", "title": "Environment of the linker", "statement": "Compiling a form leaves the variable LDSHARED of the process as it was, also after errors; meanwhile it has the options of the interpreter without repetitions, with the same meaning. (False for options of two tokens.)", "quantifier": "every value of the variable, options and result of the compilation", "why_tests_cant": "quantifies over all environments and errors", "anchors": ["python/qugar/dolfinx/jit.py:_deduped_ldshared"]}
{"id": "C156", "title": "Nanson's formula on the unfitted boundary", "statement": "The mapped normal is a unit vector normal to the mapped boundary, on the same side as the parametric one; the norm of the one that is not normalized times the factor of dx is the ratio of lengths (areas), so that integrals over the boundary in the reference cell are integrals over the physical boundary.", "quantifier": "every invertible Jacobian (plane, space, and two-dimensional cells in space), normal and tangents, and every C1 curve and map of the plane", "why_tests_cant": "quantifies over all real maps, curves and normals", "anchors": ["python/qugar/dolfinx/boundary.py:mapped_normal,ds_bdry_unf"]}
{"id": "C157", "title": "Measure of the unfitted boundary", "statement": "f*ds_bdry_unf(ids, degree=...) is the integral of f over the physical unfitted boundary of the cells with these ids, with that degree. (False for tuples of ids: Nanson's term appears twice.)", "quantifier": "every measure, ids, degree, data and Jacobian", "why_tests_cant": "quantifies over all measures and maps", "anchors": ["python/qugar/dolfinx/boundary.py:ds_bdry_unf.__rmul__,ds_bdry_unf.reconstruct,ds_bdry_unf.__init__"]}
{"id": "C158", "title": "Solids of the Python constructors", "statement": "Each Python constructor of implicit functions gives, for every admissible argument and default, Bezier or not, a function of the right dimension that is negative exactly in the documented solid (disk, sphere, ellipse, ellipsoid, cylinder, annulus, torus, half-space, box, TPMS sections, constants, multilinear functions), and raises for the other arguments. (False for create_box with an affine transformation: it always raises.)", "quantifier": "every radius, centre, axis, reference system, coefficients, transformation, dimension and use_bzr", "why_tests_cant": "quantifies over all real parameters and points", "anchors": ["python/qugar/impl/impl_function.py:create_disk,create_sphere,create_ellipse,create_ellipsoid,create_cylinder,create_annulus,create_torus,create_constant,create_plane,create_line,create_dim_linear,create_box,create_tpms", "python/nanobind_wrappers/impl_functions.cpp"]}
{"id": "C159", "title": "Algebra of functions made in Python", "statement": "Functions made by any sequence of constructors, negatives, sums, differences and transformations can be negated, added and subtracted with the expected values when the dimensions agree (raising otherwise); a function transformed by t has at t(q) the value of the function at q; evaluation at arrays is pointwise and rejects points of another dimension.", "quantifier": "every program that makes functions, and every point", "why_tests_cant": "quantifies over all histories of calls and all points", "anchors": ["python/qugar/impl/impl_function.py:create_negative,create_functions_addition,create_functions_subtraction,create_affinely_transformed_functions", "python/nanobind_wrappers/impl_functions.cpp"]}
{"id": "C160", "title": "Kernel text taken apart without loss", "statement": "Parsing the text of a generated kernel ends with its parts or an exception; the parts put together give the text back (at most the characters between the signature and its first bracket are left out), each loop over points comes with its own quadrature, text and paired brackets, and no loop is missed; rendering with a suffix renames the function and changes nothing else.", "quantifier": "every text (without loops over points nested in one another, and names with a hash of at least 29 characters for renaming)", "why_tests_cant": "quantifies over all texts", "anchors": ["python/qugar/dolfinx/_kernel_body.py:KernelBody.from_ffcx,KernelBody.render,KernelBody.render_body", "python/qugar/dolfinx/parsing_utils.py:get_pairing_brackets"]}
{"id": "C161", "title": "Loop bounds and normals in the text for cut cells", "statement": "In the text for cut cells every loop runs to its number of points at run time, the text before the first loop is in every loop, and in the loops on the unfitted boundary exactly the references to the constants that stand for normals become the components of the normals at the point (c[1] is not taken for c[10]); in the text for the other cells the loops on the unfitted boundary end at once and the others are kept. Nothing else changes.", "quantifier": "every parsed kernel, dimension, list of offsets, and set of unfitted quadratures", "why_tests_cant": "quantifies over all texts and offsets", "anchors": ["python/qugar/dolfinx/_kernel_body.py:KernelBody.dynamic_loop_bounds,KernelBody.substitute_normals,KernelBody.inline_pre_loop_into_loops,KernelBody.break_unfitted_loops"]}
{"id": "C162", "title": "Arrays of cells given to the bindings", "statement": "The functions of the Python module that take arrays of cells or facets (quadratures, reparameterizations, domains, queries) work with the elements of the arrays as Python sees them; queries with a list give the listed cells with the status, without it all of them; facets without cells are ignored, cells without facets raise; values and gradients at an array of points are those of the points, in order. (False for arrays that are not contiguous: cells[::2] is taken for the first half of the cells, cells[::-1] is read past its end.)", "quantifier": "every one-dimensional array (buffer, offset, stride, size), domain and query", "why_tests_cant": "quantifies over all arrays, strides and contents", "anchors": ["python/nanobind_wrappers/cut_quad.cpp", "python/nanobind_wrappers/reparam.cpp:create_reparam", "python/nanobind_wrappers/unf_domain.cpp:declare_unfitted_domain", "python/nanobind_wrappers/impl_functions.cpp:declare_base_implicit"]}
{"id": "C163", "title": "Lifetime of the arrays and objects of the bindings", "statement": "Whatever a program does with the objects and arrays it gets from the Python module (keep an array and forget its quadrature, keep the domain of a forgotten grid, ...), whenever unreferenced objects are deleted, everything it still holds refers to live memory; when everything is deleted no memory remains; the grid and the function of a domain are those it was made with. (False for BoundBox.mid_point, an array on a temporary.)", "quantifier": "every history of calls, copies, forgotten variables and deletions in any order", "why_tests_cant": "quantifies over all histories, including those of the garbage collector", "anchors": ["python/nanobind_wrappers/common.cpp:declare_bound_box,declare_cartesian_grid_tp", "python/nanobind_wrappers/quad.cpp", "python/nanobind_wrappers/cut_quad.cpp", "python/nanobind_wrappers/reparam.cpp", "python/nanobind_wrappers/unf_domain.cpp", "python/nanobind_wrappers/wrapper_utils.hpp:as_nbarray,get_points_array"]}
{"id": "C164", "title": "Unfitted mesh over processes", "statement": "An unfitted Cartesian mesh has exactly the cells of the grid that are not empty (all of them with exclude_empty_cells=False), whatever process they end on: every process can be constructed; the original id of each of its cells is that of the cell with its row of nodes; get_empty_cells gives none; every cell that is not empty is owned by exactly one process, once.", "quantifier": "every domain, degree, number of processes and distribution of the cells (ghosts included)", "why_tests_cant": "quantifies over all domains and distributions", "anchors": ["python/qugar/mesh/unfitted_cart_mesh.py:UnfittedCartMesh.__init__", "python/qugar/mesh/mesh.py:Mesh._create_mesh", "python/qugar/mesh/tp_mesh.py:CartesianMesh.__init__"]}
{"id": "C165", "title": "Active cells over processes", "statement": "For any list of active cells given to a Cartesian mesh, the original id of a local cell is, on every process, that of the cell with its row of nodes. (False on processes other than 0 when all the cells are given in another order.)", "quantifier": "every connectivity, list of active cells, process and cells of the process", "why_tests_cant": "quantifies over all lists and distributions", "anchors": ["python/qugar/mesh/mesh.py:Mesh._create_mesh,get_original_cell_ids,get_DOLFINx_local_cell_ids"]}
{"id": "C166", "title": "Arguments of create_unfitted_impl_Cartesian_mesh", "statement": "With a dimension of 2 or 3, positive numbers of cells (one, or one per direction), corners of one type (the requested one) and xmin below xmax, the grid has the given numbers of cells per direction, equispaced from xmin to xmax (0 and 1 when not given), and the type is the requested one, or else that of the corners, or else double; anything else raises.", "quantifier": "every dimension, number of cells, corners and type", "why_tests_cant": "quantifies over all arguments", "anchors": ["python/qugar/mesh/unfitted_cart_mesh.py:create_unfitted_impl_Cartesian_mesh"]}
{"id": "C167", "title": "DOLFINx mesh of a reparameterization", "statement": "The DOLFINx mesh of a reparameterization (cells or wirebasket) has the points of the reparameterization, one cell per cell (curve) of it, in the same order, with the degree of the reparameterization: the node that DOLFINx numbers at a lattice position is the point of the cell at this position.", "quantifier": "every dimension, degree, reparameterization and wirebasket", "why_tests_cant": "quantifies over all degrees and connectivities", "anchors": ["python/qugar/reparam/reparam.py:UnfDomainReparamMesh.create_mesh,create_reparam_mesh", "python/nanobind_wrappers/reparam.cpp:get_conn_array"]}
{"id": "C168", "title": "Geometry of the mesh of a reparameterization", "statement": "A cell of the DOLFINx mesh has, at every point of the reference cell, the same geometry as the cell of the reparameterization (the Lagrange polynomial through its points). (False from degree 3, the default: the points are at equispaced positions and the element of the mesh has Gauss-Lobatto-Legendre nodes.)", "quantifier": "every degree, dimension, reparameterization, cell and point", "why_tests_cant": "quantifies over all points and cells", "anchors": ["python/qugar/reparam/reparam.py:UnfDomainReparamMesh.create_mesh"]}
{"id": "C169", "title": "Mesh of a reparameterization over processes", "statement": "The DOLFINx mesh of a reparameterization, over all the processes of the communicator, has each cell of the reparameterization once. (False on more than one process when every process has the whole domain: each cell is there once per process.)", "quantifier": "every number of processes, domain, degree and algorithm", "why_tests_cant": "quantifies over all numbers of processes and domains", "anchors": ["python/qugar/reparam/reparam.py:create_reparam_mesh,UnfDomainReparamMesh.create_mesh,identity_partitioner"]}
{"id": "C170", "title": "Library that tabulates elements, built once", "statement": "Whatever processes and threads call it at the same time, and whichever are killed, at every moment, ensure_built returns with a complete library at least as recent as its sources; at most one compiler runs; a usable library is not written again; no call waits for ever. (False: the test before the lock takes the file that another call is writing; after a kill the incomplete file is taken for ever.)", "quantifier": "every schedule of calls, processes, compiler steps, failures, kills and clock ticks", "why_tests_cant": "quantifies over all schedules and crash points", "anchors": ["python/qugar/dolfinx/_shim/__init__.py:ensure_built,_file_lock"]}
{"id": "C171", "title": "Cache of compiled forms", "statement": "Whatever processes compile the same form at the same time, and whichever fail or are killed or interrupted, at every moment, a call that returns has the complete module, which one call at a time compiles and which is kept; a call ends within the timeout. (False when the call that compiles is killed or interrupted from the keyboard: every later call times out, for ever; and calls that wait for one that fails time out.)", "quantifier": "every schedule, timeout, failure, kill and interruption", "why_tests_cant": "quantifies over all schedules and crash points", "anchors": ["python/qugar/dolfinx/jit.py:compile_forms,_compile_objects"]}
{"id": "C172", "title": "Order of tables and quadratures in every session", "statement": "The tables of an integral and its quadratures (in whose order the kernel reads the custom data and the coefficients are packed) come in the same order in two sessions that number the elements differently, so that a kernel from the cache fits the data of another session; no table is lost, those of a quadrature are together, and the flag for mixed dimensions is right.", "quantifier": "every list of tables and numbering of the elements (distinct hashes of distinct elements)", "why_tests_cant": "quantifies over all lists and numberings", "anchors": ["python/qugar/dolfinx/fe_table.py:_sort_FE_tables,extract_FE_tables", "python/qugar/dolfinx/integral_data.py:extract_integral_data,IntegralData.dtype"]}
{"id": "C173", "title": "The pictures of quadratures show every point in its cell", "statement": "The PyVista datasets made from a quadrature (of cut cells, of unfitted boundaries, of facets) have one point per quadrature point, at the affine image of the quadrature point in the box of its cell (for facets: on that facet of the cell), with zero third component in 2D, and carry its lexicographical cell, local facet, weight and normal; points in the unit cell are shown inside the cell.", "quantifier": "every Cartesian grid in 2D and 3D, every quadrature whose arrays fit together with any numbers of entities and points per entity (also zero), every list of facet quadratures", "why_tests_cant": "tests draw a few quadratures and compare numbers of points; offsets go wrong only for particular distributions of points over entities", "anchors": ["python/qugar/plot/pyvista_tools.py: _scale_points, _create_quad_points_grid, _create_quad_facet_points_grid"]}
{"id": "C174", "title": "The picture of the cells of a domain shows the cells asked for, with their status", "statement": "unfitted_domain_to_PyVista(domain, cut, full, empty) returns exactly the cells of the domain whose kind was asked for, each one with its lexicographical id, its own box and its own status (proved for C++ domains, and for Python domains when DOLFINx kept the order of the cells; refuted otherwise: the DOLFINx numbers of the cut and full cells are used as positions in the lexicographical order of the picture).", "quantifier": "every grid, every domain built on it, every choice of flags, every numbering of the cells by DOLFINx", "why_tests_cant": "the wrong picture appears only when DOLFINx renumbers the cells; tests only check that the function returns", "anchors": ["python/qugar/plot/pyvista_tools.py: unfitted_domain_to_PyVista, cart_grid_tp_to_PyVista", "python/qugar/mesh/unfitted_domain.py: get_cut_cells, get_full_cells"]}
{"id": "C175", "title": "The picture of the facets of a domain shows the facets asked for", "statement": "unfitted_domain_facets_to_PyVista shows the full, cut and empty facets asked for, each on its own side of its own cell with its status and its lexicographical and DOLFINx local numbers (refuted for C++ domains: the function always raises; refuted for Python domains: the DOLFINx local facet is taken for a lexicographical one, so every facet but the last of a cell is drawn on another side; proved: one facet per facet of the list, on its cell, with its status, and the last local facet is right).", "quantifier": "every list of facets, dimension 2 and 3, every cell and local facet", "why_tests_cant": "the function is not tested; the mistake depends on the local facet", "anchors": ["python/qugar/plot/pyvista_tools.py: unfitted_domain_facets_to_PyVista, _append_DOLFINx_facets_ids"]}
{"id": "C176", "title": "Every integral is packed with its own quadratures", "statement": "For the position DOLFINx gives to an integral of a compiled form (its place among the integrals of its type, in the order of the compiled form), the coefficient packer finds the data (quadratures, tables) of the kernel that DOLFINx calls for that position, whose subdomain ids are exactly those of the kernel; positions past the end raise.", "quantifier": "every form (any numbers of kernels, of ids per kernel, with ids shared by several types), every order of the data, every order of the compiled integrals", "why_tests_cant": "quantifies over all forms and orders; tests have one or two integrals", "anchors": ["python/qugar/dolfinx/integral_data.py:extract_integral_data,_get_integral_subdomain_ids", "python/qugar/dolfinx/custom_coefficients.py:CustomCoeffsPacker._get_itg_data,_build_position_to_data"]}
{"id": "C177", "title": "Scalars are assembled with the coefficients given", "statement": "Once qugar.dolfinx is imported, dolfinx.fem.assemble_scalar hands to C++ the constants and coefficients it is given (and packs those not given), whatever was imported before and after and however often; other DOLFINx versions are not touched (refuted for names bound before: with 'from dolfinx.fem import assemble_scalar' before 'import qugar.dolfinx' the constants are handed over as coefficients).", "quantifier": "every history of imports and bindings of names, every constants and coefficients", "why_tests_cant": "depends on the order of the imports of the user's program", "anchors": ["python/qugar/dolfinx/_dolfinx_patches.py:_patch_assemble_scalar,apply_patches", "python/qugar/dolfinx/__init__.py"]}
{"id": "C178", "title": "The picture of a reparameterization shows it", "statement": "reparam_mesh_to_PyVista of a C++ reparameterization returns one VTK cell of the right type per cell and one curve per curve of the wirebasket, in order, with the nodes at VTK's places, on the same points (a zero third component is added in 2D); up to 6 nodes per direction the map of the VTK cell (of its picture) is the map of the cell of the reparameterization, at every parameter.", "quantifier": "every reparameterization of dimension 1 to 3 in the plane or in space, every order from 2 on, any numbers of points, cells and curves", "why_tests_cant": "a wrong node order shows only for some dimensions and degrees; tests do not look at the nodes", "anchors": ["python/qugar/plot/pyvista_tools.py: _reparam_mesh_to_PyVista, _get_PyVista_cell_type", "python/nanobind_wrappers/reparam.cpp", "python/qugar/mesh/utils.py: VTK_to_lexicg_nodes"]}
{"id": "C179", "title": "Only supported integrals are compiled, and all of them", "statement": "Before a kernel is modified it is checked: the integral is accepted if and only if it is over cells, exterior or interior facets, mixes dimensions only over exterior facets, has no sum-factorization, works with the real type of its coefficients, and the text of the kernel looks up the local facets of all its sides and no others (and the permutations of all sides and no others, if any); otherwise an error is raised (refuted: that every integral of these kinds is accepted; one over interior facets whose integrand takes one side only is not).", "quantifier": "every integral, every text of its loops, at every place of the text", "why_tests_cant": "quantifies over all texts of kernels; the two tests of errors use one form each", "anchors": ["python/qugar/dolfinx/codegeneration.py:_IntegralModifier._check_FFCx_input"]}
{"id": "C180", "title": "The declarations taken out of the kernels of custom cells", "statement": "In the kernel of custom cells the text before the first loop becomes what precedes the first '// Quadrature rules' followed by what comes after the last declaration of a table (static const type FE...;, with the white space up to the last end of line); with the mark before the tables, as FFCx writes them, only one contiguous part is taken out and no declaration of a table is left; the other loops, the headers, the bodies, the signature and the rest do not change, and nothing changes without loops, without the mark or without a table.", "quantifier": "every kernel text", "why_tests_cant": "quantifies over all texts; the tests look at the few kernels that they compile", "anchors": ["python/qugar/dolfinx/_kernel_body.py:KernelBody.erase_static_declarations"]}
{"id": "C181", "title": "The text of a rewritten access", "statement": "On the texts of the subscripts of an access to a table (decimal numbers, names of variables, sums, quadrature_permutation[k]) the rewriting raises an error exactly when no access to the loaded table corresponds (see C142), and otherwise gives the text of that access: the name, the side, and the number of functions times the index of the point plus the index of the function, terms that are 0 left out. (Refuted: that it is an access of C; with both subscripts 0, as in the first term of the geometry under a static rule of one point, the text is name[]; otherwise the subscript is not empty.)", "quantifier": "every access, every naming of the variables, every number", "why_tests_cant": "quantifies over all texts of subscripts; tests compile a few kernels, none with a rule of one point", "anchors": ["python/qugar/dolfinx/fe_table.py:FETable.create_new_access_code"]}
{"id": "C182", "title": "The accesses rewritten in a kernel", "statement": "In a text of accesses FE...[..][..][..][..] (subscripts: entries of arrays or texts without brackets) and of other texts without FE, every access to a table that varies over the points becomes the text of C181, all at once, accesses to constant or unknown tables and the other texts stay as they are, and an error is raised exactly when one of the accesses gives one; in a kernel this happens to the text before the first loop and to the bodies, and nothing else changes.", "quantifier": "every kernel, every text of this form, every set of tables", "why_tests_cant": "quantifies over all texts; tests look at the results of a few kernels", "anchors": ["python/qugar/dolfinx/_kernel_body.py:KernelBody.rewrite_table_accesses"]}
