# Design of the formal model of pantolin/qugar (C++ library in /repo/cpp, Python package in /repo/python)

Everything is in Coq 8.16.1, under `rocq/theories` (logical root `Verif`).

## Modelling conventions

* **One definition per C++ function**, with a comment citing file and lines.  Loops become structural
  recursion or recursion on explicit fuel (fuel exhaustion is a separate outcome, excluded by the theorems).
* **Integers** are `Z` (or `nat` for lengths/positions).  Where a property is about machine widths
  (C01, C02, C11) 32/64-bit overflow is an explicit `UB` outcome.
* **`real` (double) is modelled by Coq's real numbers `R`**: exact arithmetic.  Rounding is not modelled; it is
  the main gap between model and binary for all numerical properties.  Comparisons on `R` use the
  (non-executable) stdlib deciders.
* **Assertions**: the debug build is modelled.  A failing `assert` is the outcome `Abort`; undefined behaviour is
  `UB`; normal return is `Ret v` (`M_Base.v`).
* **External libraries** (algoim interval arithmetic, algoim quadrature, root finding) are *oracles*: function
  arguments of the model, universally quantified in the theorems.  Whatever is assumed about them (e.g. "the sign
  test is sound") is a hypothesis visible in the theorem statement.
* `dim` is the length of the index/size lists wherever the C++ template is dimension-generic, so most theorems hold
  for every dimension, not only 1..3.

* **Python package** (C110 on, files `*_Py*.v`): numpy arrays are lists, integers are unbounded, a raised exception, a failing
  `assert` or an out-of-range index is `Abort`.  DOLFINx objects are records of the arrays the code reads (connectivities, index ranges,
  original ids); the theorems hold for all of them that satisfy the stated consistency.

File naming: `M_*.v` models, `S_*.v` small independent specifications, `L_*.v` lemmas/proofs, `P_*.v` property
theorems only (closed by `exact`), each followed by `Print Assumptions` and a satisfiability `Example`.

A property that is false of the faithful model is stated as `…_refuted` (existence of a concrete witness), next to
the strongest true theorem (`…_partial` when it is only part of the property).

## Per property plan

| id | what is modelled, how it is proved |
|----|------------------------------------|
| C01 | `TensorIndexTP(flat,size)` and `flat(size)` with checked 32/64-bit arithmetic on lists; induction on the dimension, div/mod |
| C02 | same model; refuted: `prod(size)` is computed in `int` |
| C03 | the odometer `operator++` and begin/end; iteration with fuel; induction on dimension: refinement to the lexicographic enumeration |
| C04 | same; refuted for ranges empty in some directions only; proved when empty in all |
| C05 | `split` with argmax; case analysis, linear arithmetic |
| C06 | `operator<`; irreflexive/asymmetric/transitive parts proved, weak order refuted |
| C07 | `is_in_range` both overloads |
| C08 | knot lists over R, `get_cell_domain`; induction on the knots, product over directions |
| C09,C10 | `get_cell_id` with `upper_bound` as a scan; C10 refuted + the true tie-break proved |
| C11 | `on_boundary`, `get_boundary_cells` incl. the cast to `int` |
| C12 | `create_equispaced_breaks` |
| C13-C19 | the binary space partition tree, `create_decomposition` with sign oracle and cell/facet classification oracles; tree invariant (leaves partition the range), induction on range size |
| C20-C23 | `UnfittedDomain` record (tree, facet map, list of full cells with unfitted boundary) and all queries; invariants of built domains |
| C24 | `classify_facet_from_quad` over a list of abstract samples |
| C25 | facet/edge numbering functions |
| C26-C31 | `cut_quadrature.cpp`, `impl_quadrature.cpp` drivers over oracle rules, with the accumulating output vectors as state; static cache as state threaded through call histories |
| C32 | table offsets |
| C33 | `create_tp_quadrature`, dims 1,2,3 as written (the 3-D code is different and wrong: refuted) |
| C34,C35 | `bbox.cpp` over lists of R |
| C36-C39 | `affine_transf.cpp`, `ref_system.cpp`, 2D and 3D as written, ring/field/nsatz-style algebra |
| C40,C41 | `tolerance.cpp` |
| C42,C43 | `point.cpp` |
| C44-C51 | `reparam_mesh.cpp`, `impl_reparam_mesh.cpp` |
| C52-C62 | `bezier_tp*.cpp`, `monomials_tp.cpp`, `lagrange_tp_utils.cpp`; polynomial identities by induction on order/dimension |
| C63-C68 | `primitive_funcs_lib.cpp`, `impl_funcs_lib.cpp`, `tpms_lib.cpp`; Coquelicot `is_derive` for derivatives |
| C69-C72 | `impl_utils.cpp` (RootsIntervals), pieces of `impl_reparam_general.cpp` |
| C73 | `classify_cell` sampling (`impl_unfitted_domain.cpp`): sample list oracle, weights compared with the cell volume |
| C74 | change of variables between the physical rule and the unit-cell rule: finite sums, field |
| C77 | `compute_coefs` of `affine_transf.cpp`: algebra on 2x2 and 3x3 systems |
| C78 | values of the primitives compared with Euclidean distances: completing squares, Cauchy-Schwarz for the torus |
| C79 | `generate_wirebasket` with abstract point predicates: induction on the list of edges, counting of shared sides |
| C80,C81,C82 | Hessians by the product rule on tensor expansions; composition by induction on powers and products; linearity |
| C49,C83 | orientation loops of `impl_reparam_mesh.cpp` (`M_Orient.v`): the sums over cell points are the partial derivatives of the interpolating map (`S_Orient.v`), the flip changes the sign of the Jacobian and of the normal; induction on the list of cells.  Refuted as stated (uninitialised accumulators, wrong nodes) |
| C65 | the Bezier coefficients of each primitive expanded and summed (`M_Bzr.v`, generated from the coefficient tables of the source), ring |
| C84 | `scale_points`: induction on the ids, field |
| C85-C88 | `impl_reparam_general.cpp` (`M_General.v`: restrictions, pruning, height direction, subdivision, base and height points, all as events of the recursive construction; `M_Reparam.v`: the top-level functions). Interval arithmetic, root finder, restriction signs and uninitialised data are arbitrary oracles; `sound` only asks for roots inside the interval, a sorting sort and nodes in [0,1]. Induction on dimension and on subdivision depth with an invariant of the partially filled cells (`L_General*.v`, `L_Reparam*.v`) |
| C89,C90 | `impl_reparam.cpp` (`M_Reparam.v`): the target lists of C15, the boxes of C08, induction on the cut boxes with C85 and on the full boxes with C45; merging with the lemmas of C40 and C50 |
| C91-C93 | the literals of `quadrature_lib.cpp` as exact decimals (`M_GaussData.v`, `M_TanhSinhData.v`, generated by `tools/gentables.py`; `M_Tables.v`). A boolean check in integer arithmetic of all 200 rules is run by the kernel's virtual machine and proved sound: symmetry, monotonicity, and moments in 64-bit fixed point with error bounds (`L_Gauss*.v`); induction from powers of 2x-1 to powers of x, tensor products with C33, Coquelicot integrals; full cells with C26; in 3D refuted away from the origin (`P_Gauss3.v`) |
| C94-C97 | `impl_reparam_bezier.cpp` (`M_BzReparam.v`): the objects of the recursion as a list, lowest first; Algoim's polynomial operations (roots on a line, masks, elimination, discriminants, scores) are oracles of which only roots in [0,1] and directions in range are assumed. Invariant of the reference maps (every active interval has an entry above), completeness of the emitted points, then the mesh lemmas of C85 (`L_BzReparam*.v`); scaling with C84; refutations by exact example polynomials (graphs of functions); C97 by induction over the requested cells with C95, C96 and the lemmas of C88-C90 (`P_BzCreate.v`) |
| C98-C100 | Position of the points made by `impl_reparam_general.cpp`, in the model `M_General.v`. `S_Geo.v` says what is assumed of the code that is called: the root finder returns zeros and finds one at each change of sign, interval information is right, `determineSigns` is algoim's. Invariant over the subdivision (boxes inside the domain, number of bisections), then the two objects of the plane: the activity of the intervals of the base line gives the signs at both ends of every line over them, up to L tol (`base_bound`), which settles each fallback of `compute_similar_roots`. For steep functions (L M > 1000) the last fallback takes a reference root that is the lower end: counterexample with an explicit linear function, computed through the model (`L_Geo7.v` in the square, `L_Geo8.v` on a facet of the cube). |
| C101-C102 | The construction of the domain from a function (`M_Phi.v`): the sign by interval arithmetic, the samples of cells and facets, composed with the subdivision of C16 and the classification of C24. Assumed of the called code (`S_Phi.v`): interval arithmetic encloses, the rescaled polynomial has the values of the polynomial, the points of the rules lie in the box (or facet) and their weights add up where the function has no zero. Proof by composition with C16, C54 and C57; two explicit counterexamples. |
| C103-C104 | The VTK writer (`M_Vtk.v`): a file is the list of items sent to the stream. The specification is a reader (`S_Vtk.v`: arrays between tags, cells between offsets, VTK's point numbering of C47, resolution of file names). Blocks of relative names with a directory are refuted. |
| C105-C106 | Position of the points made by `impl_reparam_bezier.cpp` in the plane. `S_BzGeo.v` says what is assumed of Algoim (the roots along a line are the zeros, the polynomials of the base cut it where the layers of zeros change) and what is a generic polynomial: over each piece of the base the zeros are graphs (`layered`), separated in the middle, and at most one graph is within the tolerance of each end (`orderly`). Lemmas: matching of roots against the reference line (`L_BzGeo1.v`, `L_BzGeo2.v`), activity of the intervals from the signs of the layers (`L_BzGeo3.v`), the pieces of the base (`L_BzGeo4.v`). |
| C107 | The number of insertions is computed exactly along the same recursion (`L_BzCount.v`): the activity of every interval equals the sign of its layer, an interval of the base is active iff one above it is; a sum over the pieces of the base, with repeated cuts removed, gives the number of cells through the count of points of C95. |
| C108 | In 2D the interval of the base next to the face is shown to be wide and active (the restrictions to the two ends keep their signs up to the slope), and its first or last node is on the face (`L_Faces.v`). In 3D a concrete function is run symbolically through the model: all active intervals start at x >= 1/4 (`L_Saddle.v`). |
| C109 | As C108: without roots on the two sides the base is one active interval, its first and last node are the ends of the box and the first or last node of the adjacent active interval above is the vertex (`L_Vertex.v`, `L_Vertex2.v`; a function that is negative on the whole box gives a full cell). In 3D a concrete function is run symbolically: all active intervals start at x >= 1/2 (`L_Region3.v`). |
| C110,C111 | Python `utils.py` (`M_PyNodes.v`): the loops appending positions as lists; equal to the order built from the tables of vertices of the cell (`S_PyTp.v`, from the documentation of basix and VTK), hence permutations; `_invert_map` by position search. Compared with the C++ mask of `M_Vtk.v`. |
| C112,C113,C114 | Python `tp_index.py` (`M_PyTp.v`): numpy's arange, broadcast sums, slice assignments as list functions that may raise; membership by mixed-radix digits, order by strongly sorted lists. |
| C115,C116 | Python `mesh_facets.py` (`M_PyFacets.v`): numpy's unique/intersect1d/setdiff1d as sort + neighbour comparison; a DOLFINx topology is a pair of transposed connectivities; a process has its range of global ids. |
| C117,C118 | Python `mesh.py` (`M_PyMesh.v`): argsort is any sorting function; dolfinx' renumbering is an arbitrary injection; KDTree's pairs are an arbitrary list of pairs i < j; pointer doubling terminates because the sum of the pointers decreases. |
| C124-C131 | Python `unfitted_domain.py`, `unfitted_domain_abc.py`, `to_original`/`to_DOLFINx` of `mesh_facets.py` (`M_PyUnf.v`), on top of the C++ model `M_Domain.v` (C13-C15, C20-C22) and of the mesh models (C115-C117): the cached lists are the state of a machine, C127 ranges over all sequences of calls; asserts on data types are not modelled |
| C132-C134 | `at_cells_boundary` (`M_Grid.v`): the lemma on `upper_bound` of C09, induction on the directions; `M_Quad.v`: the slices of C27 written as a filter of the library's nodes (`P_Tight.v`, found necessary by wrong programs that no theorem rejected) |
| C135-C139 | Python `dolfinx/custom_coefficients.py` (packer, updates) and the generated functions that read the array (`codegeneration.py`), `M_PyPack.v`: the array is a memory of real slots; invariants "segment l lies at position p" through the writes, disjointness of the blocks from the cumulated sizes, induction on integrands and entities; reading back by the loaders gives the specification `expected`. External: quadratures, lists of cut and empty entities, DOLFINx' layout of coefficients (row per entity, two rows per interior facet, contiguous), FFCx' coefficient offsets |
| C140, C141 | `dolfinx/custom_quad_utils.py` (`M_PyQuadUtils.v`): the affine maps of basix' reference facets and the homogeneous matrices against closed forms; case analysis on cell types and facets, induction on the list of points |
| C142-C145, C149 | the code generated by `dolfinx/codegeneration.py` and `fe_table.py` as a list of commands with a C-like semantics (pointers into the scratch vector with the generation of the allocation), the shim `qugar_basix_shim.cpp`, the loops of the kernel (`M_PyKernel.v`); invariants of the memory by induction on tables, groups, quadratures, points and loops; refutations by computing the kernel symbolically; C149 composes with C135 |
| C150-C155 | `utils.py` (versions), `dolfinx/forms.py` (integrals as objects in a heap that forms share; the modified and restored integrals; what DOLFINx receives), `dolfinx/petsc.py` (stored coefficients as state), `dolfinx/jit.py` (`_deduped_ldshared`) in `M_PyForms.v`; induction over integrals with the heap as state, over histories of assemblies, over tokens; refutations by computation on small forms |
| C156-C157 | `dolfinx/boundary.py` over real matrices (`M_PyBoundary.v`), with UFL's inverse, determinant and factor of dx, and UFL's `Measure.__call__` and `Measure.__rmul__` as in UFL's source; algebra (adjugates, Gram matrices), chain rule and integrals with Coquelicot |
| C158-C159 | `impl/impl_function.py` and the overloads of `impl_functions.cpp` (`M_PyImpl.v`) over the library's functions (C64-C68, C78) and polynomials (C56); induction over the programs that make functions. nanobind's conversion of arguments is modelled by the kinds of arguments the package passes |
| C160-C161 | `dolfinx/_kernel_body.py`, `get_pairing_brackets` (`M_PyText.v`) on lists of ASCII characters; Python's `re` modelled for sequences of character classes (one, `*`, `+`; greedy with backtracking). Specification: texts described by items, paired brackets, and simultaneous replacement (`replaced`, shown to determine the text). Induction over texts; composition of the successive `re.sub` calls. `erase_static_declarations` is C180; `rewrite_table_accesses` is C182 |
| C162-C163 | The bindings (`M_PyBind.v`). C162: an array is a buffer with a start, a step and a size, read by the bindings through its first address; composed with the queries of `M_Domain.v`. C163: a state machine of C++ objects (with the shared pointers they hold), buffers, Python objects (owners, references into another instance, arrays with or without a base) and variables; the table `returns` gives the return-value policy of every binding, `collect` deletes any closed set of unreferenced objects. Invariant: every chain of references ends in an owner. The rules of nanobind are assumptions (header of `M_PyBind.v`). |
| C164-C166 | `UnfittedCartMesh` (`M_PyUnfMesh.v`): the active cells from the queries of `M_Domain.v` (C13, C14), the connectivity of `M_PyTpMesh.v`, and the mesh of each process as in C117. DOLFINx is any distribution of the rows of process 0 (`S_PyUnfMesh.distribution`: positions per process, owned first, each row owned once; the package reads positions back as `original_cell_index`). Proof: the active cells are strictly increasing, so that forgetting the list when it has all the cells (on process 0 only) changes nothing; ownership by uniqueness in the concatenation. C165: the same for lists given by the user. C166: arguments to `make_grid` (C04), all failures included |
| C167-C169 | `reparam.py` (`M_PyReparam.v`): the rows given to DOLFINx (connectivity of the C++ mesh, `get_conn_array`, permuted with the lexicographic mask of C51/C90). C167: position by position, for every degree. C168: the geometry of a DOLFINx cell is the tensor-product Lagrange interpolation at Gauss-Lobatto-Legendre nodes (`S_PyReparam.gll`: zeros of the derivative of the Legendre polynomial), that of the reparameterization at equispaced ones: equal for degrees 1 and 2, refuted for degree 3. C169: one process proved, refuted for p > 1 processes for any algorithm and domain that every process has |
| C170-C171 | Caches shared by processes (`M_PyCache.v`): a state machine per call, executions are lists of events (a step of a call with what its compiler does, a tick of the clock, the kill of a process) in any order. Proof: invariants (locks held by exactly the calls between acquiring and releasing; a recent incomplete library is being compiled; a ready module is complete), a rank for termination, progress by following the holder of the lock. Refutations give the schedule, and for kills an invariant of all later executions. FFCx's `get_cached_module`, which is not in /repo, is modelled from its description (exclusive creation of the .c file, waiting for .c.cached) |
| C172 | `_sort_FE_tables` and `extract_integral_data` (`M_PyTables.v`): dictionaries with order of insertion, any `argsort`, stable sort. Proof: the result is sorted by hash and keeps the tables of each element in order, and a list with these two properties is unique |
| C173–C175 | the functions of pyvista_tools.py on lists of points, cells and facets (PyVista objects are lists of cells with values; VTK's rectilinear cells are enumerated with the first direction fastest; explode/extract_all_edges/extract_surface are assumed to number facets cell by cell, as the code assumes) | closed forms of the two filling loops by induction on the entities; rect_cells = the cells of the grid by induction on the directions; numpy's masked writes by induction on the ids; facets by cases on the local facet (M_PyPlot, P_PyPlot, P_PyPlot2, P_PyPlot3) |
| C176 | `integral_data.py` (names and ids) and `custom_coefficients.py` (positions) on a form given by its names, ids and compiled arrays, M_PyPositions | offsets are prefix sums (concat/firstn); ids occur once per type, so that the first data with the id is that of the kernel (P_PyPositions) |
| C177 | `_dolfinx_patches.py`: module attributes and names bound by the user, an event per import | invariant over histories of imports |
| C178 | `_reparam_mesh_to_PyVista` on the model of C++ reparameterizations (M_PyReparamPic) | as C167 with VTK's order of nodes; sums over a permutation of the nodes (P_PyReparamPic) |
| C179 | `_check_FFCx_input` on the texts of the loops (lists of ASCII characters), its regular expression as a search for `name[word]`, M_PyCheck | the search finds exactly the accesses, by induction on the text; then cases (P_PyCheck) |
| C180 | `erase_static_declarations` with the model of `re` of C160 (`re.finditer` as repeated search), M_PyErase | specification: first mark, last end of a declaration (no declaration of the text ends later). A declaration starting in a match ends in it (one `;`, greedy white space); induction on the matches (P_PyErase) |
| C181 | `create_new_access_code` on texts, with the model of `re` of C160 and the standard library's decimal numbers for `int`, M_PyAccess; the accesses of M_PyKernel are its specification, through the texts of subscripts (`shows`) | refinement by cases on the subscripts; numbers are read back from their texts (P_PyAccess) |
| C182 | `rewrite_table_accesses` on texts, its regular expression (with an alternative) as a parser of runs without backtracking, M_PyRewrite | the parser reads back the texts of accesses; induction on the list of accesses (P_PyRewrite). Texts of another form (FE within names) are outside of the theorem |
| C146 | the registry of the shim as a state machine; invariant by induction on the history |
| C147 | `_resolve_mixed_component`, `_table_codegen_info` on recursively built elements; induction on the element; position of derivatives in a tabulation |
| C148 | `extract_quadrature_data` as an association list with last-wins updates |
| C119-C123 | Python `tp_mesh.py` (`M_PyTpMesh.v`): broadcast sums and strided assignments as lists; the positions of the sums are computed with the lexicographical numbering of `S_PyTp.v`; sort, unique and argsort are any functions with numpy's contract; the calls of constructors (C123) with a small type of Python values |
| C75,C76 | `purge_facet_points`, `add_unf_bdry_quad` in `impl_quadrature.cpp`: case analysis on facet statuses; C76 refuted for a default-constructed point that is not zero (`P_Quad4.v`), as C83 (`P_Orient2.v`) |

Polynomials (`M_Poly.v`): the coefficients are real (range 1; the operations act on components separately) and `T = real` (not algoim's
interval type).  De Casteljau, Horner and their derivative versions are modelled with the coefficient iterator and the in-place
triangle; the proofs reduce every evaluation to one sum over tensor indices (`tsum`).  algoim's `Binomial::row` is Pascal's triangle;
algoim's `uniformSign` is a test of all coefficients; `Bezier_product` and the composition exist for dimensions 1 to 3 only.

Orientation (`M_Orient.v`): the indeterminate content of default-constructed points is an oracle `fresh`; the true parts assume it zero.
Cell ids are naturals.  A function is a pair (value, gradient); division of a zero vector by its norm gives zeros instead of NaN (no
comparison holds with either).  algoim's Chebyshev nodes are an arbitrary function `cheb`.

Roots (`M_Roots.v`): algoim's root finder and interval evaluation are arbitrary functions; `std::sort` is any function that returns a sorted
permutation; `adjust_roots` is a fold over the sorted entries carrying the previous old root and the two flags.

Simplifications of the mesh model (`M_Mesh.v`): ids are naturals and the `int` arithmetic on offsets is exact; the two uses of
`std::ranges::sort` are arbitrary functions that return a sorted permutation; algoim's Chebyshev nodes are an arbitrary function; the
mesh of a history (C44) may contain allocated positions that are not yet filled, and validity is claimed once they all are.

Simplifications of the quadrature model (`M_Quad.v`, `M_QuadTP.v`): the Algoim callbacks appending points are list
appends of oracle rules; `static_cast<int>` of sizes is not range checked there; `reserve` is not modelled;
a default-constructed `Point` is an oracle value (`fresh_point`), because the C++ class leaves it uninitialised.
`usable_grid` (S_Grid) limits grids to at most 2^30 cells per direction and to totals that fit in `int`, so that the checked
arithmetic of C01/C02 does not interfere.

## Defects of the code found while proving

Besides the properties refuted above (theorems named `_refuted`):

- `classify_cell_Bezier` asks the sign of `bezier` instead of `bzr_domain`: in grids that leave the unit box cut cells are reported empty or full (C101).
- `classify_facet_Bezier` keeps only points with a negative value, so that a facet in the zero set is never reported as unfitted boundary (C102).
- `compute_similar_roots` of the general reparameterization falls back to reference roots that may belong to another restriction (see C71);
  the loop that decides whether subdivision may stop reads restrictions beyond the current count (stale, not out of bounds).
- `write_VTK_file("out/mesh")` refers in out/mesh.vtmb to the file "out/mesh.vtu", which a reader resolves to out/out/mesh.vtu (C104).
- A level set with several roots over one base point inside a cell keeps only the last one: the other points stay in the mesh, unused.
- The absolute tolerance on end roots makes the level-set reparameterization depend on the scaling of the function.
- `reparam_Bezier` gives a full cell to a polynomial that is positive everywhere (C94) and reads a point out of bounds in the first backup
  strategy over a tensor-product base (C96);
- in the general reparameterization, when a root gets within the tolerance of an end where the function still exceeds 1000 tolerances (a steep function), the
  reference root that replaces it is the lower end of the line (C71): the mesh gets a point far from the level set, or outside the region (C98, C99).
- `reparam_general` in 3D takes the signs of both ends of every restriction psi_i from the derivative of psi_0 (`grad(dir_k_).alpha`) instead of the derivative of psi_i: when they have opposite signs the activity test of the base rejects (or accepts) the wrong intervals, and parts of the surface (C108) or of the region (C109) are lost without notice.

Python package:

- the VTK node order of hexahedra differs from the one of the C++ writer (C111); the tables of DOLFINx' edges and VTK's faces of hexahedra are wrong (C113);
- `get_all_internal` is wrong in 3D (missing `ravel`), `get_all_faces` with one index in a direction (C114);
- `create_interior_mesh_facets` and `create_all_mesh_facets` use the global range of facets as local ids (C116);
- `_find_in_array` raises on an empty array, and the map of merged nodes exists on process 0 only (C117);
- merging with a tolerance depends on the order in which pairs are found (C118);
- `get_cell_tensor_index` and `get_cell_bbox` index a scalar (C121); `get_face_facets` uses lexicographical face numbers as DOLFINx local facets (C122); `create_Cartesian_mesh` passes the ghost mode as active cells and always raises (C123);
- `_get_empty_facets_int_integral` assigns the list with the non-cut facets on the unfitted boundary to `_interior_cut_facets` (C126, C127); `create_facet_tags` gives the empty facets the tag of the cut ones (C129);
- custom integrals over interior facets: `_compute_offsets` zeroes the row whose number is the position of the empty facet (should be twice that), so full facets are skipped and empty ones integrated (C137); the inserted offset column splits the coefficients of the two sides (C138); with two coefficients the offset is looked for at the wrong place (C139);
- `_create_permutation_operators` compares a UFL cell with the string "quadrilateral": two of the eight symmetries are missing and such facets raise an IndexError (C141).
- all the quadratures of a kernel tabulate into the same thread-local scratch vector before the first loop runs: with two quadratures (f*v*dx + g*v*ds_bdry_unf) the first loop reads the basis functions at the points of the second, or a dangling pointer (C143);
- static rules of one point: FFCx drops the index of the point and the permutations, so that all custom points use the values of the first (C145) and the second side of interior facets those of the first side (C144);
- two `ds_bdry_unf` measures share the name of their fake two-point rule: the degree of the last one is used for all (C148).
- `_compare_version_le` is not the lexicographic order, and a version such as `0.10.0.post1` raises a ValueError that is not caught (C150);
- `_flatten_list` drops the forms that are not lists: `form_custom` on a list of forms returns `[]` (C151);
- the id given to exterior integrals without id ignores ids in tuples, so that it can coincide with one of them; if such an integral comes first among those with data, an assertion fails (C152);
- `integral.reconstruct(..., subdomain_data=integral.subdomain_id())` (forms.py 171) loses the data; a raising call leaves the form modified; integrals shared with other forms are modified (C153);
- `_update_coefficients` passes the whole list of old coefficients to each form (C154);
- `_deduped_ldshared` removes the repeated `-arch` of `-arch a -arch b` (C155);
- `f*ds_bdry_unf((1, 2))` multiplies by Nanson's term in `__rmul__`, and again in the `__rmul__` of the measures that UFL's branch for tuples gets from `reconstruct` (C157).
- `create_box(affine_transf)` always raises: it calls `create_square_2D`/`create_square_3D`, whose bindings take no argument, with the transformation (and asserts that the dimension is given); the binding `create_square` is never called (C158).
- the bindings that take arrays of cells or facets ignore their strides, so that `cells[::2]` gives the first half of the cells and `cells[::-1]` reads past the end; the package itself passes contiguous arrays (C162);
- `get_*_facets` of the binding: cells without facets throw bad_optional_access; the assert meant for that names a variable that does not exist, so that the file does not compile with assertions (C162);
- `BoundBox.mid_point` is an array on the memory of a temporary (C163); the methods of `UnfittedDomain` capture local lambdas by reference, which have ended when they are called (they have no state that is used, so it goes unnoticed; not in the model).
- `Mesh._create_mesh` compares the number of active cells with that of the connectivity, which is empty on the processes other than 0: when all the cells are given as active in another order, process 0 forgets the order and the others do not, and their original ids are wrong (C165).
- `create_mesh` of a reparameterization uses the default (GLL) Lagrange element for points at equispaced positions: another geometry from degree 3, the default (C168); in parallel every process hands over the whole reparameterization (C169);
- `ensure_built` tests the library before taking the lock, while the compiler writes it in place: a concurrent process takes an incomplete file; after a kill it is taken for ever (C170); `except Exception` in `compile_forms` does not catch KeyboardInterrupt, so that an interrupted compilation makes every later one time out (C171);
- `unfitted_domain_to_PyVista` uses DOLFINx cell numbers as positions in the lexicographical order of the picture (C174); `unfitted_domain_facets_to_PyVista` always raises for C++ domains (they have `dim`, not `tdim`), and for Python domains takes DOLFINx local facets for lexicographical ones (C175).
- the patch of `assemble_scalar` replaces module attributes only: a name bound by `from dolfinx.fem import assemble_scalar` before `import qugar.dolfinx` keeps handing constants over as coefficients, silently (C177).
- `_check_FFCx_input` asks interior-facet kernels to look up both local facets: integrals of one side only, as `f('+')*dS`, are rejected as an implementation error (C179).
- `create_new_access_code` drops terms that are 0: an access with both last subscripts 0, as FFCx writes under a static rule of one point, becomes `name[]`, which C does not accept (C181).

## Not modelled

Floating-point rounding; algoim internals (quadrature generation, interval arithmetic, root finding, polynomial masks);
opening and closing of files, the decimal printing of numbers; the Python bindings except for C162-C163 (and the signatures of C158), and the parts of the Python package that only call DOLFINx, UFL, FFCx or PyVista (form compilation, MPI communication); memory inside of the C++ library (reserve/capacity, aliasing);
`std::unordered_map` iteration order (the model takes an arbitrary association list with distinct keys, and theorems
hold for every order).

## Trusted base

Coq 8.16.1's kernel (including its `vm_compute` reduction machine, used for the table checks of C91-C93) and the `coqc` front end; the reading of the C++ code (the model is hand written); what
`Print Assumptions` lists for each theorem.  Theorems over R rest on the standard library's real-number axioms
(`ClassicalDedekindReals.sig_forall_dec`, `ClassicalDedekindReals.sig_not_dec`,
`FunctionalExtensionality.functional_extensionality_dep`); theorems using
Coquelicot may additionally list `Classical_Prop.classic`.  All are from the standard library.
