(** The geometry of a cell of a reparameterization mesh: the map that interpolates its points at given nodes. *)
From Coq Require Import Reals List.
From Coquelicot Require Import Coquelicot.
From Verif Require Import S_Lagrange S_Affine.
Import ListNotations.
Open Scope R_scope.

(** The Lagrange polynomial i of the nodes c_0 ... c_(n-1). *)
Definition lagrange (c : nat -> R) (n i : nat) (x : R) : R :=
  fold_right Rmult 1 (map (fun j => if (j =? i)%nat then 1 else (x - c j) / (c i - c j)) (seq 0 n)).
(** The k-th point of a cell has index (k mod n, (k / n) mod n, ...).  Component [comp] at xi of the map that interpolates the points. *)
Definition cell_map (c : nat -> R) (dim n : nat) (pts : list (list R)) (xi : list R) (comp : nat) : R :=
  sum_n (n ^ dim) (fun k => nth comp (nth k pts []) 0 *
    fold_right Rmult 1 (map (fun d => lagrange c n ((k / n ^ d) mod n) (nth d xi 0)) (seq 0 dim))).
(** Partial derivative of the component [comp] along [dir]. *)
Definition cell_derivative (c : nat -> R) (dim n : nat) (pts : list (list R)) (xi : list R) (dir comp : nat) : R :=
  Derive (fun s => cell_map c dim n pts (map (fun d => if (d =? dir)%nat then s else nth d xi 0) (seq 0 dim)) comp) (nth dir xi 0).
(** The derivative along [dir] as a vector of the space of dimension [range]. *)
Definition tangent (c : nat -> R) (dim range n : nat) (pts : list (list R)) (xi : list R) (dir : nat) : list R :=
  map (cell_derivative c dim n pts xi dir) (seq 0 range).
(** The Jacobian determinant of a cell with dim = range = 2, 3. *)
Definition cell_jacobian (c : nat -> R) (dim n : nat) (pts : list (list R)) (xi : list R) : R :=
  let T := tangent c dim dim n pts xi in
  match dim with 3%nat => det3 (T 0%nat) (T 1%nat) (T 2%nat) | _ => det2 (T 0%nat) (T 1%nat) end.
(** The same point in the parameters of the cell with permuted directions. *)
Definition flip_param (xi : list R) : list R := match xi with [x] => [1 - x] | a :: b :: r => b :: a :: r | [] => [] end.
Definition centre (dim : nat) : list R := repeat (1/2) dim.
Definition symmetric_nodes (n : nat) (c : nat -> R) : Prop := forall i, (i < n)%nat -> c (n - 1 - i)%nat = 1 - c i.
(** The (unnormalised) normal of a curve in the plane, rotated clockwise from its tangent, and of a surface in space. *)
Definition cross (u v : list R) : list R :=
  [nth 1 u 0 * nth 2 v 0 - nth 2 u 0 * nth 1 v 0; nth 2 u 0 * nth 0 v 0 - nth 0 u 0 * nth 2 v 0; nth 0 u 0 * nth 1 v 0 - nth 1 u 0 * nth 0 v 0].
Definition geometric_normal (c : nat -> R) (dim n : nat) (pts : list (list R)) (xi : list R) : list R :=
  let T := tangent c dim (S dim) n pts xi in
  match dim with 2%nat => cross (T 0%nat) (T 1%nat) | _ => [nth 1 (T 0%nat) 0; - nth 0 (T 0%nat) 0] end.
