(** Model of the complete reparameterization functions: the static functions of cpp/qugar/impl_reparam_general.cpp, the wirebasket of one function
    (impl_reparam_mesh.cpp) and create_reparameterization (impl_reparam.cpp). *)
From Verif Require Export M_Domain M_Mesh M_Orient M_General.
Close Scope Z_scope.
Close Scope nat_scope.
Open Scope R_scope.

(** impl_utils.cpp 32-36: on_levelset. *)
Definition on_levelset (phi : list R -> R) (tol : R) (p : list R) : bool := is_zero tol (phi p).
(** impl_reparam_mesh.cpp 99-125 with the single function phi (the assertion on the number of functions holds): check_face, check_internal (lines 111-122),
    then lines 127-177: the edges of the cells, nothing for a mesh of dimension 1. *)
Definition wirebasket_phi (phi : list R -> R) (range mdim : nat) (m : mesh) (cell_ids : list nat) (domain : bbox) (tol : R) : outcome mesh :=
  if (1 <? mdim)%nat then
    generate_wirebasket range mdim m (flat_map (fun c => map (pair c) (seq 0 (n_edges mdim))) cell_ids) domain tol
      (on_levelset phi tol) (fun p => ((range - 1 <=? 1)%nat && on_levelset phi tol p)%bool)
  else Ret m.
(** impl_reparam_general.cpp 870, 913: the tolerance of the wirebasket. *)
Definition reparam_tol : R := 10000 * eps.
(** impl_reparam_general.cpp 824-836: orient_cells; [grad] is the gradient of the function, [fresh] the indeterminate content of the default-constructed
    points of the orientation functions. *)
Definition orient_new (O : oracles) (grad : list R -> list R) (fresh : nat -> nat -> list R) (range : nat) (S : bool) (m : mesh) (ids : list nat) : outcome mesh :=
  if S then orient_levelset (o_cheb O) fresh (range - 1) m [(o_phi O, grad)] ids else orient_cells_positively (o_cheb O) fresh range m ids.
Definition mesh_dim (range : nat) (S : bool) : nat := if S then range - 1 else range.
(** impl_reparam_general.cpp 844-874: reparameterize (reserve_cells changes nothing). *)
Definition reparam_general (O : oracles) (grad : list R -> list R) (fresh : nat -> nat -> list R) (range : nat) (S : bool) (m : mesh) (domain : bbox) : outcome mesh :=
  n0 <- M_Mesh.num_cells (mesh_dim range S) m ;;
  m1 <- reparam_cells O range S m domain ;;
  n1 <- M_Mesh.num_cells (mesh_dim range S) m1 ;;
  let ids := seq n0 (n1 - n0) in
  m2 <- orient_new O grad fresh range S m1 ids ;;
  wirebasket_phi (o_phi O) range (mesh_dim range S) m2 ids domain reparam_tol.
(** impl_reparam_general.cpp 876-917: reparameterize_facet. *)
Definition reparam_general_facet (O : oracles) (fresh : nat -> nat -> list R) (range : nat) (facet : Z) (m : mesh) (domain : bbox) : outcome mesh :=
  n0 <- M_Mesh.num_cells (range - 1) m ;;
  m1 <- reparam_facet_cells O range facet m domain ;;
  n1 <- M_Mesh.num_cells (range - 1) m1 ;;
  let ids := seq n0 (n1 - n0) in
  m2 <- orient_facet (o_cheb O) fresh (range - 1) m1 facet ids ;;
  wirebasket_phi (o_phi O) range (range - 1) m2 ids domain reparam_tol.

(** impl_reparam.cpp 48-105: create_reparameterization for the given cells of a domain with a non-Bezier function (reserve_cells changes nothing;
    n_pts_dir is a natural number, a negative one aborts like 0).  [sort pts] sorts ids by a coordinate of the points pts, [esort] sorts wires. *)
Definition reparam_cut (O : oracles) grad fresh (range : nat) (S : bool) (D : domain) (cut : list Z) (m : mesh) : outcome mesh :=
  foldM (fun m id => dom <- get_cell_domain (d_grid D) id ;; reparam_general O grad fresh range S m dom) cut m.
Definition reparam_full (O : oracles) (range : nat) (D : domain) (full : list Z) (m : mesh) : outcome mesh :=
  doms <- M_Mesh.mapM (get_cell_domain (d_grid D)) full ;; add_full_cells (o_cheb O) range m doms true.
Definition create_reparameterization (O : oracles) grad fresh (sort : list (list R) -> nat -> list nat -> list nat) esort (range : nat) (S : bool)
    (D : domain) (cells : list Z) (order : nat) (merge : bool) : outcome mesh :=
  assert_ (1 <? order)%nat (
  let sorted := zsort cells in
  cut <- get_cells_target D Ccut sorted ;;
  m0 <- new_mesh order ;;
  m1 <- reparam_cut O grad fresh range S D cut m0 ;;
  m2 <- (if S then Ret m1 else full <- get_cells_target D Cfull sorted ;; reparam_full O range D full m1) ;;
  if merge then merge_coincident_points (sort (m_points m2)) esort range m2 (10000 * eps) else Ret m2).
(** impl_reparam.cpp 38-46: all the cells of the grid. *)
Definition create_reparameterization_all (O : oracles) grad fresh sort esort (range : nat) (S : bool) (D : domain) (order : nat) (merge : bool) : outcome mesh :=
  create_reparameterization O grad fresh sort esort range S D (map Z.of_nat (seq 0 (Z.to_nat (M_Grid.num_cells (d_grid D))))) order merge.
