(** python/qugar/mesh/unfitted_cart_mesh.py: unfitted Cartesian meshes, from the domain to the mesh of every process. *)
From Coq Require Import Reals.
From Verif Require Import M_Domain M_Grid.
From Verif Require Import M_PyBase M_PyNodes M_PyFacets M_PyTp M_PyMesh M_PyTpMesh M_PyUnf.
Close Scope R_scope.
Local Open Scope Z_scope.

(** unfitted_cart_mesh.py 69-73: the active cells, computed on every process; np.sort is a parameter. *)
Definition constructor_active (sort : list Z -> list Z) (exclude_empty_cells : bool) (D : domain) : outcome (option (list Z)) :=
  if exclude_empty_cells then
    full <- get_cells D Cfull ;; cut <- get_cells D Ccut ;; Ret (Some (sort (full ++ cut)))
  else Ret None.
(** tp_mesh.py 303-317, 514: the connectivity: of all the cells of the grid on the process 0, without rows on the others. *)
Definition conn_on_rank (rank : nat) (degree : nat) (g : grid) : outcome (list (list nat)) :=
  if (rank =? 0)%nat then tensor_prod_conn (length (breaks g)) degree (map Z.to_nat (num_cells_dir g)) else Ret [].
(** mesh.py 344-393: Mesh._create_mesh on a process without merging of nodes: the rows given to DOLFINx by this process, and the mesh; the cells
    and nodes of the process (positions in what the process 0 gave) are chosen by DOLFINx. *)
Definition create_on_rank {A} (rank : nat) (active : option (list Z)) (conn : list A) (cells nodes : list Z) : outcome (list A * mesh) :=
  rows <- (if (rank =? 0)%nat then dolfinx_conn active conn else Ret []) ;;
  Ret (rows, {| original_cell_index := cells; active_cells := effective_active active (length conn); input_global_indices := nodes; merged_nodes_map := [] |}).
(** unfitted_cart_mesh.py 34-78: UnfittedCartMesh.__init__ on a process (ghost mode and types are handed over unchanged). *)
Definition unfitted_mesh_on_rank (sort : list Z -> list Z) (rank degree : nat) (exclude_empty_cells : bool) (g : grid) (D : domain) (cells nodes : list Z) : outcome (list (list nat) * mesh) :=
  active <- constructor_active sort exclude_empty_cells D ;;
  conn <- conn_on_rank rank degree g ;;
  create_on_rank rank active conn cells nodes.

(** unfitted_cart_mesh.py 81-163: create_unfitted_impl_Cartesian_mesh: the arguments. *)
Inductive cells_arg := CellsInt (n : Z) | CellsList (l : list Z).
Inductive rtype := F32 | F64.
Definition rtype_eqb (a b : rtype) : bool := match a, b with F32, F32 | F64, F64 => true | _, _ => false end.
Definition corner := (rtype * list R)%type.
(** 123-124. *)
Definition cells_per_dir (dim : nat) (a : cells_arg) : list Z := match a with CellsInt n => repeat n dim | CellsList l => l end.
(** 127-133. *)
Definition infer_dtype (dtype : option rtype) (xmin xmax : option corner) : rtype :=
  match dtype with Some t => t | None => match xmin with Some c => fst c | None => match xmax with Some c => fst c | None => F64 end end end.
(** 135-143: a missing corner is filled with the default value, one of another type raises. *)
Definition fill_corner (dim : nat) (t : rtype) (dflt : R) (c : option corner) : outcome corner :=
  match c with None => Ret (t, repeat dflt dim) | Some c => if rtype_eqb (fst c) t then Ret c else Abort end.
(** np.linspace(a, b, num): raises for a negative number, [a] for 1; real numbers for floating-point numbers. *)
Definition linspace (a b : R) (num : Z) : outcome (list R) :=
  if num <? 0 then Abort else
  let n := Z.to_nat num in
  Ret (map (fun i => if (n =? 1)%nat then a else (a + INR i * ((b - a) / INR (n - 1)))%R) (seq 0 n)).
(** numpy: an all over a comparison. *)
Fixpoint all_gt (u v : list R) : bool := match u, v with x :: u', y :: v' => Rltb y x && all_gt u' v' | _, _ => true end.
(** 120-150: the grid (the creation of the domain and of the mesh is above); [impl_dim] is impl_func.dim. The comparison xmax > xmin of 146 is
    reached with equal sizes. *)
Definition grid_of_arguments (impl_dim : nat) (n_cells : cells_arg) (xmin xmax : option corner) (dtype : option rtype) : outcome (grid * rtype) :=
  let dim := impl_dim in
  assert_ ((2 <=? dim) && (dim <=? 3))%nat
   (let n := cells_per_dir dim n_cells in
    assert_ (length n =? dim)%nat
     (let t := infer_dtype dtype xmin xmax in
      lo <- fill_corner dim t 0%R xmin ;;
      hi <- fill_corner dim t 1%R xmax ;;
      assert_ ((dim =? length (snd lo)) && (dim =? length (snd hi)))%nat
       (assert_ (all_gt (snd hi) (snd lo))
         (brks <- pmap (fun d => linspace (nth d (snd lo) 0%R) (nth d (snd hi) 0%R) (nth d n 0 + 1)) (seq 0 dim) ;;
          g <- make_grid brks ;;
          Ret (g, fst lo))))).
