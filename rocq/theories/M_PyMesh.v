(** python/qugar/mesh/mesh.py: renumberings of the class Mesh. *)
From Verif Require Import M_PyBase.
Local Open Scope Z_scope.

(** numpy's searchsorted (left): the first position whose entry is not below v. *)
Fixpoint searchsorted (l : list Z) (v : Z) : nat := match l with [] => 0%nat | x :: l' => if x <? v then S (searchsorted l' v) else 0%nat end.
(** mesh.py 111-134: _find_in_array. numpy's argsort (not stable) is a parameter; [np.take(index, ., mode="clip")] takes the last entry when the
    position is past the end, and raises when [index] is empty. *)
Definition find_in_array (argsort : list Z -> list nat) (values all_values : list Z) : outcome (list Z) :=
  let index := argsort all_values in
  sorted_all_values <- take_ids all_values index ;;
  pmap (fun v =>
    let p := searchsorted sorted_all_values v in
    i <- pat index (Nat.min p (length index - 1)) ;;
    x <- pat all_values i ;;
    Ret (if x =? v then Z.of_nat i else -1)) values.

(** The state of a Mesh on a process: topology.original_cell_index, _original_active_cells, geometry.input_global_indices, _merged_nodes_map
    (empty without merged nodes). *)
Record mesh := { original_cell_index : list Z; active_cells : option (list Z); input_global_indices : list Z; merged_nodes_map : list Z }.
(** mesh.py 360-362: the active cells are forgotten when they are as many as the cells of the connectivity. *)
Definition effective_active (active : option (list Z)) (n_cells : nat) : option (list Z) :=
  match active with Some a => if (length a =? n_cells)%nat then None else Some a | None => None end.
(** mesh.py 360-366: the connectivity handed to DOLFINx on the process 0 (before nodes are merged). *)
Definition dolfinx_conn {A} (active : option (list Z)) (conn : list A) : outcome (list A) :=
  match effective_active active (length conn) with Some a => take_zids conn a | None => Ret conn end.
(** mesh.py 396-421: get_DOLFINx_local_cell_ids (the cast to int32 is not modelled). *)
Definition get_DOLFINx_local_cell_ids (argsort : list Z -> list nat) (m : mesh) (orig : list Z) : outcome (list Z) :=
  ids <- match active_cells m with Some a => find_in_array argsort orig a | None => Ret orig end ;;
  find_in_array argsort ids (original_cell_index m).
(** mesh.py 465-491: get_original_cell_ids. *)
Definition get_original_cell_ids (m : mesh) (ids : list Z) : outcome (list Z) :=
  assert_ (forallb (fun i => (i <? Z.of_nat (length (original_cell_index m))) && (0 <=? i)) ids)
    (orig <- take_zids (original_cell_index m) ids ;;
     match active_cells m with Some a => take_zids a orig | None => Ret orig end).
(** mesh.py 493-521: get_DOLFINx_local_node_ids. *)
Definition get_DOLFINx_local_node_ids (argsort : list Z -> list nat) (m : mesh) (orig : list Z) : outcome (list Z) :=
  ids <- (if (0 <? length (merged_nodes_map m))%nat then take_zids (merged_nodes_map m) orig else Ret orig) ;;
  find_in_array argsort ids (input_global_indices m).
(** mesh.py 523-551: get_original_node_ids. *)
Definition get_original_node_ids (argsort : list Z -> list nat) (m : mesh) (ids : list Z) : outcome (list Z) :=
  assert_ (forallb (fun i => (i <? Z.of_nat (length (input_global_indices m))) && (0 <=? i)) ids)
    (orig <- take_zids (input_global_indices m) ids ;;
     if (0 <? length (merged_nodes_map m))%nat then find_in_array argsort orig (merged_nodes_map m) else Ret orig).

Local Close Scope Z_scope.
(** mesh.py 36-108: _merge_coincident_points_in_mesh. The coincident pairs (i, j), i < j, found by the KDTree are a parameter. *)
(** Assignment [a[i] = x]. *)
Definition assign (l : list nat) (i x : nat) : list nat := firstn i l ++ [x] ++ skipn (S i) l.
(** 85-87: slave_to_master[slave] = slave_to_master[master]: the right-hand side is taken before; a later assignment to the same entry wins. *)
Definition first_masters (n : nat) (pairs : list (nat * nat)) : list nat :=
  fold_left (fun s p => assign s (snd p) (nth (fst p) (seq 0 n) 0)) pairs (seq 0 n).
(** 89-94: pointer doubling until nothing changes. *)
Definition compose (s : list nat) : list nat := map (fun i => nth i s 0) s.
Fixpoint doubling (fuel : nat) (s : list nat) : outcome (list nat) :=
  match fuel with
  | 0 => OutOfFuel
  | S fuel' => let s' := compose s in if list_eq_dec Nat.eq_dec s' s then Ret s' else doubling fuel' s'
  end.
(** 96: np.unique of numbers below n. *)
Definition unique_below (n : nat) (l : list nat) : list nat := filter (fun i => existsb (Nat.eqb i) l) (seq 0 n).
(** 96-108; master_to_new_ordering is defined at the masters only. *)
Definition merge_points {A} (fuel : nat) (nodes : list A) (conn : list (list nat)) (pairs : list (nat * nat)) : outcome (list A * list (list nat) * list nat) :=
  let n := length nodes in
  s <- doubling fuel (first_masters n pairs) ;;
  let masters := unique_below n s in
  old_to_new <- pmap (fun i => where0 i masters) s ;;
  new_nodes <- take_ids nodes masters ;;
  new_conn <- pmap (take_ids old_to_new) conn ;;
  Ret (new_nodes, new_conn, old_to_new).
(** mesh.py 344, 364-373: the map of merged nodes is set on the process 0 only. *)
Definition mesh_on_rank (rank : nat) (cells : list Z) (active : option (list Z)) (nodes map_of_merged : list Z) : mesh :=
  {| original_cell_index := cells; active_cells := active; input_global_indices := nodes; merged_nodes_map := if rank =? 0 then map_of_merged else [] |}.
