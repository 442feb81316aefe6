(** Histories of operations on a reparameterization mesh (C44): the meshes a user can build, with the positions of the connectivity
    that were allocated but not yet filled. *)
From Coq Require Import Reals List Arith ZArith.
From Verif Require Import M_Mesh S_Mesh S_Point.
Import ListNotations.

Inductive reachable (dim range : nat) : mesh -> list nat -> Prop :=
| r_new order m : new_mesh order = Ret m -> reachable dim range m []
| r_allocate m pend n : reachable dim range m pend ->
    reachable dim range (fst (allocate_cells dim m n)) (pend ++ seq (length (m_conn m)) (n * m_order m ^ dim))
| r_insert m pend p cell pt m' : reachable dim range m pend -> insert_cell_point dim m p cell pt = Ret m' ->
    reachable dim range m' (remove Nat.eq_dec (cell * m_order m ^ dim + pt)%nat pend)
| r_full_cell cheb m domain wb m' : reachable dim range m [] -> dim = 2%nat \/ dim = 3%nat ->
    add_full_cell cheb dim m domain wb = Ret m' -> reachable dim range m' []
| r_full_cells cheb m domains wb m' : reachable dim range m [] -> dim = 2%nat \/ dim = 3%nat ->
    add_full_cells cheb dim m domains wb = Ret m' -> reachable dim range m' []
| r_merge m o m' : reachable dim range m [] -> reachable dim range o [] -> mesh_merge m o = Ret m' -> reachable dim range m' []
| r_merge_points sort esort m tol m' : reachable dim range m [] -> (0 <= tol)%R -> sorting_routine (m_points m) sort -> sorts_by edge_lt esort ->
    merge_coincident_points sort esort range m tol = Ret m' -> reachable dim range m' []
| r_permute m cell m' : reachable dim range m [] -> permute_cell_directions dim m cell = Ret m' -> reachable dim range m' []
| r_scale m ids od nd m' : reachable dim range m [] -> scale_points m ids od nd = Ret m' -> reachable dim range m' []
| r_wirebasket m edges domain tol cf ci m' : reachable dim range m [] -> dim = 2%nat \/ dim = 3%nat ->
    generate_wirebasket range dim m edges domain tol cf ci = Ret m' -> reachable dim range m' [].
