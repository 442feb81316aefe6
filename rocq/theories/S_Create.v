(** Specification vocabulary for the reparameterization of unfitted domains (C89). *)
From Coq Require Import Reals List ZArith Arith.
From Verif Require Import M_Reparam S_General S_Mesh.
Import ListNotations.
Local Close Scope Z_scope. Local Close Scope R_scope. Local Open Scope nat_scope.

(** One cell, the lattice of nodes of a box, is appended, with all its edges as wires. *)
Definition lattice_added (cheb : nat -> nat -> R) (dim : nat) (box : bbox) (m m' : mesh) : Prop :=
  exists new, m_order m' = m_order m /\ m_points m' = m_points m ++ new /\ length new = m_order m ^ dim /\
    (forall t d, is_index dim (m_order m) t -> d < dim ->
       let lo := nth d (bmin box) 0%R in let hi := nth d (bmax box) 0%R in let i := nth d t 0 in
       length (nth (position (m_order m) t) new []) = dim /\
       nth d (nth (position (m_order m) t) new []) 0%R =
         (lo + (hi - lo) * (if m_order m <? 7 then INR i / INR (m_order m - 1) else cheb i (m_order m)))%R) /\
    m_conn m' = m_conn m ++ seq (length (m_points m)) (m_order m ^ dim) /\
    m_wires m' = m_wires m ++ flat_map (fun e => map (fun i => length (m_points m) + position (m_order m) (edge_point dim (m_order m) e i))
                                          (seq 0 (m_order m))) (seq 0 (edge_count dim)).
(** The mesh m' is m and, box after box, reparameterizations of the boxes. *)
Inductive regions_added (dim range : nat) (phi : list R -> R) (tol : R) : list bbox -> mesh -> mesh -> Prop :=
| ra_nil m : regions_added dim range phi tol [] m m
| ra_cons b bs m m1 m' n0 k np ni nw : length (m_conn m) = n0 * m_order m ^ dim -> region_added dim range (in_box b) phi tol b m m1 n0 k np ni nw ->
    regions_added dim range phi tol bs m1 m' -> regions_added dim range phi tol (b :: bs) m m'.
Inductive lattices_added (cheb : nat -> nat -> R) (dim : nat) : list bbox -> mesh -> mesh -> Prop :=
| la_nil m : lattices_added cheb dim [] m m
| la_cons b bs m m1 m' : lattice_added cheb dim b m m1 -> lattices_added cheb dim bs m1 m' -> lattices_added cheb dim (b :: bs) m m'.
