(** python/qugar/mesh/tp_mesh.py: the connectivity and the nodes of tensor-product meshes. *)
From Coq Require Import Reals.
From Verif Require Import M_PyBase M_PyNodes M_PyTp M_PyMesh.
Close Scope R_scope. Open Scope nat_scope.

(** tp_mesh.py 56, 106: n_pts. *)
Definition n_pts_dir (degree : nat) (n_cells : list nat) : list nat := map (fun n => n * degree + 1) n_cells.
(** tp_mesh.py 54-77: the nodes of the first cell, in lexicographical order. *)
Definition first_cell_lex (dim degree : nat) (n_cells : list nat) : list nat :=
  let n_pts := n_pts_dir degree n_cells in
  let n0 := nth 0 n_pts 0 in let n1 := nth 1 n_pts 0 in
  let first1 := arange 0 (degree + 1) 1 in
  if dim =? 1 then first1 else
  let first2 := concat (outer_sum first1 (arange 0 ((degree + 1) * n0) n0)) in
  if dim =? 2 then first2 else concat (outer_sum first2 (arange 0 ((degree + 1) * n0 * n1) (n0 * n1))).
(** tp_mesh.py 37-83: _create_first_cell_conn_Cartesian. *)
Definition first_cell_conn (dim degree : nat) (n_cells : list nat) : outcome (list nat) :=
  assert_ ((1 <=? dim) && (dim <=? 3)) (assert_ (1 <=? degree) (assert_ (forallb (fun n => 0 <? n) n_cells)
    (dlf_to_lex <- DOLFINx_to_lexicg_nodes dim degree ;;
     pmap (fun i => j <- pat dlf_to_lex i ;; pat (first_cell_lex dim degree n_cells) j) (seq 0 (length dlf_to_lex))))).
(** [a.reshape(-1, k)]: raises when the size is not a multiple of k. *)
Definition reshape_rows (k : nat) (l : list nat) : outcome (list (list nat)) :=
  if (length l mod k =? 0) then Ret (map (fun i => firstn k (skipn (i * k) l)) (seq 0 (length l / k))) else Abort.
(** tp_mesh.py 86-128: _create_tensor_prod_mesh_conn. [conn] before the final reshape is kept flattened (reshaping does not change the order
    of the entries). *)
Definition tensor_prod_conn (dim degree : nat) (n_cells : list nat) : outcome (list (list nat)) :=
  assert_ ((1 <=? dim) && (dim <=? 3)) (assert_ (1 <=? degree) (assert_ (forallb (fun n => 0 <? n) n_cells)
    (let n_pts := n_pts_dir degree n_cells in
     let p0 := nth 0 n_pts 0 in let p1 := nth 1 n_pts 0 in
     let c0 := nth 0 n_cells 0 in let c1 := nth 1 n_cells 0 in let c2 := nth 2 n_cells 0 in
     first <- first_cell_conn dim degree n_cells ;;
     let conn1 := concat (outer_sum first (arange 0 (c0 * degree) degree)) in
     let conn2 := if 1 <? dim then concat (outer_sum conn1 (arange 0 (p0 * degree * c1) (p0 * degree))) else conn1 in
     let conn3 := if 2 <? dim then concat (outer_sum conn2 (arange 0 (p0 * p1 * degree * c2) (p0 * p1 * degree))) else conn2 in
     reshape_rows (length first) conn3))).

(** [a[start::step] = vals]: raises when the number of entries does not match (and vals is not a single value, which is broadcast). *)
Definition set_stride (start step : nat) (vals arr : list R) : outcome (list R) :=
  let count := (length arr - start + (step - 1)) / step in
  if (length vals =? count) || (length vals =? 1)
  then Ret (map (fun p => if (start <=? p) && ((p - start) mod step =? 0)
                          then nth (if length vals =? 1 then 0 else (p - start) / step) vals 0%R else nth p arr 0%R) (seq 0 (length arr)))
  else Abort.
(** Componentwise [a * u + b * v]. *)
Definition combine2 (a b : R) (u v : list R) : list R := map (fun p => (a * fst p + b * snd p)%R) (combine u v).
(** tp_mesh.py 191-206: the points in one direction. np.empty leaves arbitrary values ([fresh]); np.empty of a negative size raises (no break). *)
Definition pts_of_breaks (fresh : nat -> R) (degree : nat) (breaks : list R) : outcome (list R) :=
  assert_ (1 <=? length breaks)
    (let n_cells := length breaks - 1 in
     a0 <- set_stride 0 degree breaks (map fresh (seq 0 (n_cells * degree + 1))) ;;
     fold_left (fun acc i => a <- acc ;;
        let coeff_1 := (INR i / INR degree)%R in let coeff_0 := (1 - coeff_1)%R in
        set_stride i degree (combine2 coeff_0 coeff_1 (removelast breaks) (tl breaks)) a) (seq 1 (degree - 1)) (Ret a0)).
(** tp_mesh.py 131-164: _create_Cartesian_mesh_nodes_from_points: the columns x of the nodes, flattened (np.meshgrid), and the rows.
    For dim = 1, x[0] is the first coordinate only. *)
Definition meshgrid_columns (pts : list (list R)) : outcome (list (list R)) :=
  match pts with
  | [p] => x0 <- pat p 0 ;; Ret [[x0]]
  | [p; q] => Ret [flat_map (fun _ => p) q; flat_map (fun y => map (fun _ => y) p) q]
  | [p; q; r] => Ret [flat_map (fun _ => flat_map (fun _ => p) q) r; flat_map (fun _ => flat_map (fun y => map (fun _ => y) p) q) r;
                      flat_map (fun z => flat_map (fun _ => map (fun _ => z) p) q) r]
  | _ => Abort
  end.
Definition nodes_from_points (pts : list (list R)) : outcome (list (list R)) :=
  x <- meshgrid_columns pts ;;
  Ret (map (fun r => map (fun col => nth r col 0%R) x) (seq 0 (length (nth 0 x [])))).
(** tp_mesh.py 167-208: _create_Cartesian_mesh_nodes_from_cells. *)
Definition nodes_from_cells (fresh : nat -> R) (breaks : list (list R)) (degree : nat) : outcome (list (list R)) :=
  assert_ ((1 <=? length breaks) && (length breaks <=? 3)) (assert_ (1 <=? degree)
    (pts <- (if degree =? 1 then Ret breaks else pmap (pts_of_breaks fresh degree) breaks) ;; nodes_from_points pts)).

(** numpy: indexing an array with a scalar (or an array of dimension 0) gives a scalar, with an array an array. *)
Inductive pyids := Scalar (i : Z) | Array (l : list Z).
(** tp_mesh.py 440-453: get_cell_tensor_index: np.array(i) of a scalar is an array of dimension 0, so that get_original_cell_ids gives a
    scalar, which cannot be indexed with [0]. *)
Definition get_cell_tensor_index (m : mesh) (n_cells : list nat) (id : pyids) : outcome (list nat) :=
  match id with
  | Scalar i => _ <- get_original_cell_ids m [i] ;; Abort
  | Array l => r <- get_original_cell_ids m l ;; c <- pat r 0 ;; Ret (get_tensor_index n_cells (Z.to_nat c))
  end.
(** tp_mesh.py 538-559: get_cell_bbox (tdim = gdim). *)
Definition get_cell_bbox (m : mesh) (breaks : list (list R)) (n_cells : list nat) (id : pyids) : outcome (list R * list R) :=
  t <- get_cell_tensor_index m n_cells id ;;
  lo <- pmap (fun d => b <- pat breaks d ;; i <- pat t d ;; pat b i) (seq 0 (length n_cells)) ;;
  hi <- pmap (fun d => b <- pat breaks d ;; i <- pat t d ;; pat b (i + 1)) (seq 0 (length n_cells)) ;;
  Ret (lo, hi).

(** tp_mesh.py 395-414: get_face_DOLFINx_cells: np.sort is a parameter. *)
Definition get_face_DOLFINx_cells (sort : list Z -> list Z) (argsort : list Z -> list nat) (m : mesh) (n_cells : list nat) (face : nat) : outcome (list Z) :=
  lex_cells <- get_face n_cells face true ;;
  cells <- get_DOLFINx_local_cell_ids argsort m (map Z.of_nat lex_cells) ;;
  Ret (sort (filter (fun c => 0 <=? c)%Z cells)).
(** tp_mesh.py 416-438: get_face_facets; np.unique is a parameter, [cell_to_facets] the rows of the connectivity of DOLFINx. *)
Definition get_face_facets (sort unique : list Z -> list Z) (argsort : list Z -> list nat) (m : mesh) (n_cells : list nat)
    (cell_to_facets : list (list Z)) (face : nat) : outcome (list Z) :=
  cells <- get_face_DOLFINx_cells sort argsort m n_cells face ;;
  fs <- pmap (fun c => row <- patz cell_to_facets c ;; pat row face) cells ;;
  Ret (sort (unique fs)).
(** tp_mesh.py 361-393: create_facet_bdry_tags: the pairs (facet, marker) given to meshtags, sorted by facet with np.argsort. *)
Definition facet_bdry_tags (sort unique : list Z -> list Z) (argsort : list Z -> list nat) (m : mesh) (n_cells : list nat)
    (cell_to_facets : list (list Z)) : outcome (list (Z * nat)) :=
  faces <- pmap (fun f => fs <- get_face_facets sort unique argsort m n_cells cell_to_facets f ;; Ret (map (fun x => (x, f)) fs)) (seq 0 (2 * length n_cells)) ;;
  take_ids (concat faces) (argsort (map fst (concat faces))).

(** tp_mesh.py 562-609: create_Cartesian_mesh, 594-609, and the calls to the constructors of CartesianMesh (471-519), TensorProductMesh
    (254-325) and Mesh (162-207, 360-362). Values of Python handed over by position; only arrays have an attribute [size].
    The C++ grid, the DOLFINx mesh and the construction of the nodes are not modelled here. *)
Inductive pyval := PyNone | PyArray (n : nat) | PyGhostMode (g : nat) | PyDtype (d : nat).
Definition py_size (v : pyval) : outcome nat := match v with PyArray n => Ret n | _ => Abort end.
(** Mesh._create_mesh, 360-362. *)
Definition mesh_active_cells (active_cells : pyval) (conn_rows : nat) : outcome pyval :=
  match active_cells with
  | PyNone => Ret PyNone
  | v => s <- py_size v ;; Ret (if s =? conn_rows then PyNone else v)
  end.
(** CartesianMesh(comm, grid, degree, active_cells=None, ghost_mode=GhostMode.none, dtype=np.float64). *)
Definition CartesianMesh_init (conn_rows : nat) (active_cells ghost_mode dtype : pyval) : outcome pyval := mesh_active_cells active_cells conn_rows.
(** The call in line 609: CartesianMesh(comm, cpp_grid, degree, ghost_mode, xmin_.dtype.type). *)
Definition create_Cartesian_mesh (conn_rows : nat) (ghost_mode : nat) (dtype : nat) : outcome pyval :=
  CartesianMesh_init conn_rows (PyGhostMode ghost_mode) (PyDtype dtype) (PyDtype 0).
