(** Specification vocabulary for the general reparameterization (C85 - C89). *)
From Coq Require Import Reals List ZArith Arith.
From Verif Require Import M_General S_Mesh.
Import ListNotations.
Local Close Scope Z_scope. Local Close Scope nat_scope. Local Open Scope R_scope.

(** A point of the box. *)
Definition in_box (dom : bbox) (p : list R) : Prop :=
  length p = length (bmin dom) /\ forall d, (d < length p)%nat -> nth d (bmin dom) 0 <= nth d p 0 <= nth d (bmax dom) 0.
(** What is assumed of the code that is called and not modelled: the root finder returns roots of the interval it searches, std::sort sorts, the
    Chebyshev nodes are in [0,1], a vector of the space has [range] entries.  Nothing is assumed on the level set function, on its values in
    interval arithmetic, on the signs of the restrictions or on uninitialised data. *)
Record sound (O : oracles) (range : nat) : Prop := mk_sound {
  s_roots : forall pt d a b flag, a <= b -> Forall (fun r => a <= r <= b) (o_root_find O pt d a b flag);
  s_sort : sorts_by root_less (o_sort O);
  s_cheb : forall i n, (i < n)%nat -> 0 <= o_cheb O i n <= 1;
  s_point : length (o_point O) = range }.
(** A box of dimension [range] whose sides are not tiny: longer than 2^32 times the default tolerance (about 1e-5). *)
Definition large_box (range : nat) (dom : bbox) : Prop :=
  length (bmin dom) = range /\ length (bmax dom) = range /\ forall d, (d < range)%nat -> 2 ^ 32 * (10 * / 2 ^ 52) < nth d (bmax dom) 0 - nth d (bmin dom) 0.
(** The mesh m' is m with whole cells appended: the old points, cells and wirebasket are kept; the new cells refer to new points only, and no
    point is used twice by them; the new points satisfy [P]. *)
Definition cells_added (dim : nat) (P : list R -> Prop) (m m' : mesh) (new_points : list (list R)) (new_ids : list nat) : Prop :=
  m_order m' = m_order m /\ m_points m' = m_points m ++ new_points /\ m_conn m' = m_conn m ++ new_ids /\ m_wires m' = m_wires m /\
  (exists n, length new_ids = n * m_order m ^ dim)%nat /\ NoDup new_ids /\
  Forall (fun i => length (m_points m) <= i < length (m_points m'))%nat new_ids /\ Forall P new_points.

(** The ids of the points of the edge e of the cell c, from the smaller of the ids of its two ends. *)
Definition edge_ids (dim : nat) (m : mesh) (ce : nat * nat) : list nat :=
  let l := map (fun i => nth (fst ce * m_order m ^ dim + position (m_order m) (edge_point dim (m_order m) (snd ce) i)) (m_conn m) 0)%nat (seq 0 (m_order m)) in
  if (last l 0 <? hd 0 l)%nat then rev l else l.
(** A predicate of the points of the space: the function vanishes up to tol there. *)
Definition vanishes (phi : list R -> R) (tol : R) (p : list R) : bool := if Rle_dec (Rabs (phi p)) tol then true else false.
(** The wires [new] are those of the cells n0, ..., n0 + k - 1 of the mesh m: the edges (none in dimension 1) that are not collapsed and lie on an
    edge of the box, or on a face of the box and on the level set, or (in the plane only) on the level set. *)
Definition wires_of (dim range : nat) (phi : list R -> R) (tol : R) (dom : bbox) (m : mesh) (n0 k : nat) (new : list nat) : Prop :=
  exists chosen, new = concat (map (edge_ids dim m) chosen) /\ NoDup chosen /\
    forall c e, In (c, e) chosen <-> (1 < dim)%nat /\ (n0 <= c < n0 + k)%nat /\ (e < edge_count dim)%nat /\
      wire_edge range tol (bmin dom) (bmax dom) (vanishes phi tol) (fun p => if (range =? 2)%nat then vanishes phi tol p else false)
        (map (fun i => nth i (m_points m) []) (edge_ids dim m (c, e))).
(** The mesh m' is the mesh m, with n0 cells, and a reparameterization of a part of the box [dom]: new points that satisfy P, k new cells on new points
    that are not shared, and their wires. *)
Definition region_added (dim range : nat) (P : list R -> Prop) (phi : list R -> R) (tol : R) (dom : bbox) (m m' : mesh) (n0 k : nat)
    (new_points : list (list R)) (new_ids new_wires : list nat) : Prop :=
  m_order m' = m_order m /\ m_points m' = m_points m ++ new_points /\ m_conn m' = m_conn m ++ new_ids /\ m_wires m' = m_wires m ++ new_wires /\
  length new_ids = (k * m_order m ^ dim)%nat /\ NoDup new_ids /\ Forall (fun i => length (m_points m) <= i < length (m_points m'))%nat new_ids /\
  Forall P new_points /\ wires_of dim range phi tol dom m' n0 k new_wires.
