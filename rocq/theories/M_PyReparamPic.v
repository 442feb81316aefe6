(** python/qugar/plot/pyvista_tools.py: the pictures of reparameterizations. *)
From Coq Require Import Reals.
From Verif Require Import M_Mesh.
From Verif Require Import M_PyBase M_PyNodes M_PyReparam.
Close Scope R_scope. Open Scope nat_scope.

Inductive vtk_type := LINE | QUAD | HEXAHEDRON | LAGRANGE_CURVE | LAGRANGE_QUADRILATERAL | LAGRANGE_HEXAHEDRON.
(** pyvista_tools.py 147-180: _get_PyVista_cell_type. *)
Definition get_PyVista_cell_type (dim degree : nat) : outcome vtk_type :=
  assert_ ((1 <=? dim) && (dim <=? 3))
    (pat (if degree =? 1 then [LINE; QUAD; HEXAHEDRON] else [LAGRANGE_CURVE; LAGRANGE_QUADRILATERAL; LAGRANGE_HEXAHEDRON]) (dim - 1)).
(** 732-743: _create_unstructured_grid: the cells (type and points) made of an array of [n_cols] columns. The assignment of line 738 needs as many
    columns on both sides. *)
Definition create_unstructured_grid (conn : list (list nat)) (n_cols dim degree : nat) : outcome (list (vtk_type * list nat)) :=
  vtk_mask <- VTK_to_lexicg_nodes dim degree ;;
  rows <- pmap (fun row => take_ids row vtk_mask) conn ;;
  assert_ (length vtk_mask =? n_cols)
    (t <- get_PyVista_cell_type dim degree ;; Ret (map (fun r => (t, r)) rows)).
(** 701-747: _reparam_mesh_to_PyVista: points, cells and wirebasket. [dim], [range]: the template parameters of the C++ object; the points have [range]
    components. *)
Record reparam_pic := { rp_points : list (list R); rp_cells : list (vtk_type * list nat); rp_wires : list (vtk_type * list nat) }.
Definition reparam_mesh_to_PyVista (dim range : nat) (m : mesh) : outcome reparam_pic :=
  let degree := m_order m - 1 in
  let points := if range =? 2 then map (fun p => p ++ [0%R]) (m_points m) else m_points m in
  cells <- create_unstructured_grid (get_conn_array (m_conn m) (m_order m ^ dim)) (m_order m ^ dim) dim degree ;;
  wires <- create_unstructured_grid (get_conn_array (m_wires m) (m_order m)) (m_order m) 1 degree ;;
  Ret {| rp_points := points; rp_cells := cells; rp_wires := wires |}.
