(** python/qugar/plot/pyvista_tools.py: the pictures of quadratures, cells and facets. A PyVista dataset is read as the list of its cells (points)
    with the values of its cell arrays; numbers are reals, the zero components added to two-dimensional points are zeros of R. *)
From Coq Require Import String.
From Verif Require Import M_Real M_BBox M_Grid M_Domain.
From Verif Require Import M_PyBase M_PyNodes M_PyMesh.
Local Open Scope nat_scope.

(** A quadrature of cut cells, of unfitted boundaries (with normals) or of facets (with local facets): nanobind_wrappers/cut_quad.cpp 46-160. *)
Record pquad := { q_points : list (list R); q_weights : list R; q_normals : option (list (list R)); q_cells : list Z; q_facets : list nat; q_npts : list nat }.
(** A set of points with its cell data (one VERTEX cell per point, 184-206). *)
Record picture := { v_points : list (list R); v_cells : list Z; v_weights : list R; v_normals : option (list (list R)); v_facets : list nat }.

(** pyvista_tools.py 50-73: _scale_points, point by point (the assertions on the shapes hold for the only call). *)
Definition scale_point (b : bbox) (p : list R) : list R := map2 Rplus (map2 Rmult p (map2 Rminus (bmax b) (bmin b))) (bmin b).
(** 241-254: rows of an array of zeros with three columns, the first ones overwritten. *)
Definition pad3 (p : list R) : list R := p ++ repeat 0%R (3 - length p).
(** 245-254: the loop over the entities; the rows past the last entity stay zero. *)
Fixpoint place_blocks (g : grid) (cells : list Z) (npts : list nat) (pts : list (list R)) : outcome (list (list R)) :=
  match cells, npts with
  | c :: cells', n :: npts' =>
      b <- get_cell_domain g c ;;
      rest <- place_blocks g cells' npts' (skipn n pts) ;;
      Ret (map (fun p => pad3 (scale_point b p)) (firstn n pts) ++ rest)
  | _, _ => Ret (map (fun _ => repeat 0%R 3) pts)
  end.
(** np.repeat(a, n). *)
Fixpoint np_repeat {A} (a : list A) (n : list nat) : list A :=
  match a, n with x :: a', k :: n' => repeat x k ++ np_repeat a' n' | _, _ => [] end.
Definition all_len (d : nat) (l : list (list R)) : bool := forallb (fun p => length p =? d) l.
(** 209-274: _create_quad_points_grid (PyVista rejects cell arrays of the wrong length). *)
Definition create_quad_points_grid (g : grid) (q : pquad) : outcome picture :=
  let dim := length (breaks g) in
  let n_pts := length (q_weights q) in
  assert_ (length (q_cells q) =? length (q_npts q))
  (assert_ ((length (q_points q) =? n_pts) && all_len dim (q_points q))
  (pts <- place_blocks g (q_cells q) (q_npts q) (q_points q) ;;
   let ids := np_repeat (q_cells q) (q_npts q) in
   assert_ (length ids =? n_pts)
   (normals <- match q_normals q with
               | None => Ret None
               | Some ns => assert_ ((length ns =? n_pts) && all_len dim ns) (Ret (Some (map pad3 ns)))
               end ;;
    Ret {| v_points := pts; v_cells := ids; v_weights := q_weights q; v_normals := normals; v_facets := [] |}))).

(** 76-98, 101-124, 127-150: constant direction, constant side, active directions of the (lexicographical) facets. *)
Definition facets_const_dirs (dim : nat) : outcome (list nat) := assert_ ((2 <=? dim) && (dim <=? 3)) (Ret (if dim =? 2 then [0; 0; 1; 1] else [0; 0; 1; 1; 2; 2])).
Definition facets_const_sides (dim : nat) : outcome (list nat) := assert_ ((2 <=? dim) && (dim <=? 3)) (Ret (if dim =? 2 then [0; 1; 0; 1] else [0; 1; 0; 1; 0; 1])).
Definition facets_active_dirs (dim : nat) : outcome (list (list nat)) :=
  assert_ ((2 <=? dim) && (dim <=? 3)) (Ret (if dim =? 2 then [[1]; [1]; [0]; [0]] else [[1; 2]; [1; 2]; [0; 2]; [0; 2]; [0; 1]; [0; 1]])).
Definition set_at (l : list R) (i : nat) (x : R) : list R := firstn i l ++ [x] ++ skipn (S i) l.
(** 352-356: a point of the reference facet as a point of the reference cell. *)
Definition facet_point (dim const_dir const_side : nat) (active : list nat) (p : list R) : list R :=
  fold_left (fun row id => set_at row (snd id) (nth (fst id) p 0%R)) (combine (seq 0 (length active)) active)
    (set_at (repeat 0%R dim) const_dir (INR const_side)).
(** 345-369: the facets of one quadrature. (Simplified: slices past the end of the points raise; numpy raises too, unless one point is left, which it
    repeats.) *)
Fixpoint facet_blocks (dim : nat) (dirs sides : list nat) (active : list (list nat)) (cells : list Z) (facets npts : list nat) (pts : list (list R)) : outcome (list (list R)) :=
  match cells, facets, npts with
  | _ :: cells', f :: facets', n :: npts' =>
      d <- pat dirs f ;; s <- pat sides f ;; a <- pat active f ;;
      assert_ (n <=? length pts)
      (rest <- facet_blocks dim dirs sides active cells' facets' npts' (skipn n pts) ;;
       Ret (map (facet_point dim d s a) (firstn n pts) ++ rest))
  | _, _, _ => Ret []
  end.
Definition sum_nat (l : list nat) : nat := fold_right Nat.add 0 l.
(** 303-382: _create_quad_facet_points_grid. (Simplified: the arrays of each quadrature have consistent sizes, asserted here; then the preallocated
    arrays are filled exactly.) *)
Definition create_quad_facet_points_grid (g : grid) (quads : list pquad) : outcome picture :=
  assert_ (0 <? length quads)
  (let dim := length (breaks g) in
   dirs <- facets_const_dirs dim ;; sides <- facets_const_sides dim ;; active <- facets_active_dirs dim ;;
   blocks <- pmap (fun q =>
     assert_ ((length (q_cells q) =? length (q_npts q)) && (length (q_facets q) =? length (q_npts q)) && (sum_nat (q_npts q) =? length (q_points q))
              && (length (q_weights q) =? length (q_points q)) && all_len (dim - 1) (q_points q))
       (facet_blocks dim dirs sides active (q_cells q) (q_facets q) (q_npts q) (q_points q))) quads ;;
   let npts := concat (map q_npts quads) in
   v <- create_quad_points_grid g {| q_points := concat blocks; q_weights := concat (map q_weights quads); q_normals := None;
                                     q_cells := concat (map q_cells quads); q_facets := []; q_npts := npts |} ;;
   let fs := np_repeat (concat (map q_facets quads)) npts in
   assert_ (length fs =? length (v_weights v))
   (Ret {| v_points := v_points v; v_cells := v_cells v; v_weights := v_weights v; v_normals := v_normals v; v_facets := fs |})).

(** A cell of a picture of a grid: its lexicographical id and its box. *)
(** VTK's cells of a RectilinearGrid: the first coordinate runs fastest (pv.RectilinearGrid( *cell_breaks), 656). *)
Fixpoint rect_cells (brks : list (list R)) : list (list R * list R) :=
  match brks with
  | [] => [([], [])]
  | b :: brks' => flat_map (fun c => map (fun xy => (fst xy :: fst c, snd xy :: snd c)) (combine b (tl b))) (rect_cells brks')
  end.
(** 635-671: cart_grid_tp_to_PyVista of a C++ grid. *)
Definition cart_grid_cells (brks : list (list R)) : outcome (list (Z * (list R * list R))) :=
  assert_ ((1 <=? length brks) && (length brks <=? 3))
    (let c := rect_cells brks in Ret (combine (map Z.of_nat (seq 0 (length c))) c)).
(** ... and of a CartesianMesh: the active cells only (extract_cells). The DOLFINx ids appended are left out. *)
Definition mesh_grid_cells (m : mesh) (brks : list (list R)) : outcome (list (Z * (list R * list R))) :=
  c <- cart_grid_cells brks ;;
  match active_cells m with Some a => take_zids c a | None => Ret c end.

(** numpy's l[ids] = v. *)
Fixpoint fill {A} (l : list A) (ids : list Z) (v : A) : outcome (list A) :=
  match ids with
  | [] => Ret l
  | i :: ids' =>
      let n := Z.of_nat (length l) in
      let j := if (0 <=? i)%Z then i else (i + n)%Z in
      if ((0 <=? j) && (j <? n))%Z then fill (firstn (Z.to_nat j) l ++ [v] ++ skipn (S (Z.to_nat j)) l) ids' v else Abort
  end.
(** 617-632: the end of unfitted_domain_to_PyVista: status of the cells, selection by threshold. *)
Definition cells_picture (n_cells : nat) (cells : list (Z * (list R * list R))) (cut_cells full_cells : list Z) (cut full empty : bool) :
    outcome (list (Z * (list R * list R) * nat)) :=
  value <- fill (repeat empty n_cells) cut_cells cut ;;
  status <- fill (repeat 2 n_cells) cut_cells 1 ;;
  value <- fill value full_cells full ;;
  status <- fill status full_cells 0 ;;
  assert_ ((length cells =? n_cells))
    (Ret (map fst (filter (fun x : Z * (list R * list R) * nat * bool => snd x) (combine (combine cells status) value)))).
(** 580-632: unfitted_domain_to_PyVista of a C++ domain. *)
Definition domain_picture (D : domain) (cut full empty : bool) : outcome (list (Z * (list R * list R) * nat)) :=
  cells <- cart_grid_cells (breaks (d_grid D)) ;;
  c <- get_cells D Ccut ;; f <- get_cells D Cfull ;;
  cells_picture (Z.to_nat (num_cells (d_grid D))) cells c f cut full empty.
(** ... and of a Python domain; [cut_cells], [full_cells] are its get_cut_cells() and get_full_cells() (unfitted_domain.py 125-153), [n_global] the
    number of cells of the mesh. *)
Definition mesh_picture (m : mesh) (brks : list (list R)) (n_global : nat) (cut_cells full_cells : list Z) (cut full empty : bool) :
    outcome (list (Z * (list R * list R) * nat)) :=
  cells <- mesh_grid_cells m brks ;;
  cells_picture n_global cells cut_cells full_cells cut full empty.

(** 505-577: unfitted_domain_facets_to_PyVista. Attributes looked up on the domain: those of the bindings (nanobind_wrappers/unf_domain.cpp 104-258)
    and those of UnfittedCartMesh, a subclass of Mesh (mesh.py 229). *)
Inductive domain_kind := CppDomain | PythonDomain.
Local Open Scope string_scope.
Definition attributes (k : domain_kind) : list string :=
  match k with
  | CppDomain => ["dim"; "grid"; "num_total_cells"; "has_facets_with_unf_bdry"; "get_full_cells"; "get_empty_cells"; "get_cut_cells"; "get_empty_facets";
                  "get_full_facets"; "get_cut_facets"; "get_unf_bdry_facets"; "get_full_unf_bdry_facets"; "impl_func"]
  | PythonDomain => ["tdim"; "gdim"; "degree"; "mesh"; "cpp_unf_domain_object"; "num_global_cells"; "get_full_cells"; "get_empty_cells"; "get_cut_cells";
                     "get_full_facets"; "get_cut_facets"; "get_empty_facets"; "get_DOLFINx_local_cell_ids"; "get_DOLFINx_global_cell_ids"]
  end.
Definition getattr {A} (k : domain_kind) (name : string) (v : A) : outcome A := if existsb (String.eqb name) (attributes k) then Ret v else Abort.
Local Close Scope string_scope.
(** A facet of the picture: cell of the picture, VTK facet, status, and the lexicographical and DOLFINx facets appended at the end. *)
Record pfacet := { pf_cell : nat; pf_vtk : nat; pf_status : nat; pf_lex : nat; pf_dlf : option nat }.
(** 546-577, after the picture of all the cells. After explode() and extract_all_edges() (extract_surface()), the facet [vtk] of the cell [c] is the
    cell c * n_facets_per_cell + vtk: assumed of VTK, as the code does. extract_cells sorts and keeps one of equal cells: [unique]. A facet that is in
    several lists keeps the last status. *)
Definition set_status (l : list nat) (ids : list nat) (v : nat) : outcome (list nat) := fill l (map Z.of_nat ids) v.
Fixpoint mark (dim : nat) (vtk_lex_mask : list nat) (lists : list (nat * list (nat * nat))) (st : list nat) (active : list nat) : outcome (list nat * list nat) :=
  match lists with
  | [] => Ret (st, active)
  | (s, fs) :: lists' =>
      vs <- take_ids vtk_lex_mask (map snd fs) ;;
      let ids := map (fun cv => fst cv * (2 * dim) + snd cv) (combine (map fst fs) vs) in
      st' <- set_status st ids s ;;
      mark dim vtk_lex_mask lists' st' (active ++ ids)
  end.
Definition facets_picture (unique : list nat -> list nat) (k : domain_kind) (dim n_cells : nat) (full cut empty : option (list (nat * nat))) : outcome (list pfacet) :=
  dim <- getattr k "tdim" dim ;;
  assert_ ((2 <=? dim) && (dim <=? 3))
  (mask <- VTK_to_lexicg_faces dim ;;
   let opt s o := match o with Some l => [(s, l)] | None => [] end in
   sa <- mark dim mask (opt 0 full ++ opt 1 cut ++ opt 2 empty) (repeat 3 (n_cells * (2 * dim))) [] ;;
   back <- lexicg_to_VTK_faces dim ;;
   pmap (fun i =>
     let v := i mod (2 * dim) in
     st <- pat (fst sa) i ;;
     lex <- pat back v ;;
     dlf <- match k with
            | CppDomain => Ret None
            | PythonDomain => tbl <- DOLFINx_to_lexicg_faces dim ;; d <- pat tbl lex ;; Ret (Some d)
            end ;;
     Ret {| pf_cell := i / (2 * dim); pf_vtk := v; pf_status := st; pf_lex := lex; pf_dlf := dlf |}) (unique (snd sa))).
