(** Specification of DOLFINx meshes of reparameterizations. *)
From Coq Require Import Reals List Arith.
From Coquelicot Require Import Coquelicot.
From Verif Require Import S_PyTp S_Orient.
Import ListNotations.
Open Scope R_scope.

(** The geometry of a cell of DOLFINx: node k of the row is the node [nth k (basix_order degree dim)] of the tensor-product element with the
    nodes c 0, ..., c degree in every direction; component [comp] at the point xi of the reference cell. *)
Definition dolfinx_map (c : nat -> R) (dim degree : nat) (row : list nat) (points : list (list R)) (xi : list R) (comp : nat) : R :=
  fold_right Rplus 0 (map (fun k => nth comp (nth (nth k row O) points []) 0 *
    fold_right Rmult 1 (map (fun d => lagrange c (degree + 1) (nth d (nth k (basix_order degree dim) []) O) (nth d xi 0)) (seq 0 dim))) (seq 0 ((degree + 1) ^ dim))).
(** The points of cell i of the reparameterization, with [n_pts] points per cell. *)
Definition cell_points (n_pts : nat) (conn : list nat) (points : list (list R)) (i : nat) : list (list R) :=
  map (fun k => nth (nth (i * n_pts + k) conn O) points []) (seq 0 n_pts).
(** The nodes of the reparameterization (up to order 6): equispaced. *)
Definition equispaced (degree : nat) (i : nat) : R := INR i / INR degree.

(** Legendre polynomials, and the Gauss-Lobatto-Legendre nodes of the unit interval: the ends, and the zeros of the derivative of the Legendre
    polynomial of the degree of the element, in increasing order (basix' variant gll_warped on tensor-product cells). *)
Fixpoint legendre2 (d : nat) (x : R) : R * R :=
  match d with 0%nat => (1, x) | S d' => let p := legendre2 d' x in (snd p, ((2 * INR d + 1) * x * snd p - INR d * fst p) / (INR d + 1)) end.
Definition legendre (d : nat) (x : R) : R := fst (legendre2 d x).
Definition gll (degree : nat) (c : nat -> R) : Prop :=
  c 0%nat = 0 /\ c degree = 1 /\ (forall i j, (i < j <= degree)%nat -> c i < c j) /\ forall i, (0 < i < degree)%nat -> Derive (legendre degree) (2 * c i - 1) = 0.

(** A mesh over several processes: each gives rows and points, the points are numbered one process after the other. The cells, by their points. *)
Definition global_cells (given : list (list (list nat) * list (list R))) : list (list (list R)) :=
  let points := concat (map snd given) in map (fun row => map (fun i => nth i points []) row) (concat (map fst given)).
