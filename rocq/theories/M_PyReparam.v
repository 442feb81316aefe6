(** python/qugar/reparam/reparam.py: DOLFINx meshes of reparameterizations. *)
From Coq Require Import Reals.
From Verif Require Import M_Mesh.
From Verif Require Import M_PyBase M_PyNodes.
Close Scope R_scope. Open Scope nat_scope.

(** reparam.cpp 40-51 (bindings): get_conn_array: the connectivity as an array with n_pts_per_cell columns (the remainder is asserted only). *)
Definition get_conn_array (conn : list nat) (n_pts_per_cell : nat) : list (list nat) :=
  map (fun c => firstn n_pts_per_cell (skipn (c * n_pts_per_cell) conn)) (seq 0 (length conn / n_pts_per_cell)).
(** reparam.py 129-137: the rows and the points handed to DOLFINx by a process, and the degree of the element. [tdim] is cpp_object.dim. *)
Definition create_mesh_rows (tdim : nat) (wirebasket : bool) (m : mesh) : outcome (nat * list (list nat) * list (list R)) :=
  let degree := m_order m - 1 in
  let reparam_tdim := if wirebasket then 1 else tdim in
  let conn := if wirebasket then get_conn_array (m_wires m) (m_order m) else get_conn_array (m_conn m) (m_order m ^ tdim) in
  conn_mask <- DOLFINx_to_lexicg_nodes reparam_tdim degree ;;
  rows <- pmap (fun row => pmap (pat row) conn_mask) conn ;;
  Ret (degree, rows, m_points m).
(** reparam.py 27-70: identity_partitioner: the process of every cell; the cells given by DOLFINx are the vertices of the cells of the process. *)
Definition identity_partitioner (rank : nat) (tdim : nat) (cells : list nat) : list nat := repeat rank (length cells / 2 ^ tdim).
(** reparam.py 188-193: create_reparam_mesh; [algo] is the C++ function (levelset or solid), applied on every process to its C++ domain with the
    number of points per direction, without merging. *)
Definition create_reparam_mesh {D} (algo : D -> nat -> bool -> outcome mesh) (domain : D) (degree : nat) : outcome mesh :=
  assert_ (0 <? degree) (algo domain (degree + 1) false).
