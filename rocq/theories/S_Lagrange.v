(** Specification of Lagrange interpolation, without the Lagrange formula: the basis of the nodes c_0, ..., c_(n-1) is the one that
    reproduces every polynomial of degree < n from its values at the nodes. *)
From Coq Require Import Reals List.
Import ListNotations.
Open Scope R_scope.

(** The value at x of the polynomial with coefficients a_0, a_1, ... *)
Fixpoint poly_value (a : list R) (x : R) : R := match a with [] => 0 | c :: a' => c + x * poly_value a' x end.
Definition distinct_nodes (n : nat) (c : nat -> R) : Prop := forall i j, (i < n)%nat -> (j < n)%nat -> i <> j -> c i <> c j.
Definition equispaced (n i : nat) : R := INR i / INR (n - 1).
(** The sum of [f 0], ..., [f (n-1)]. *)
Definition sum_n (n : nat) (f : nat -> R) : R := fold_right Rplus 0 (map f (seq 0 n)).
(** [values x] is, for every x, the vector of the n Lagrange basis functions of the nodes c at x. *)
Definition interpolates (n : nat) (c : nat -> R) (values : R -> list R) : Prop :=
  forall x, length (values x) = n /\ forall a, (length a <= n)%nat -> sum_n n (fun i => poly_value a (c i) * nth i (values x) 0) = poly_value a x.
(** Basis function i is one at node i and zero at the other nodes. *)
Definition cardinal (n : nat) (c : nat -> R) (values : R -> list R) : Prop :=
  forall i j, (i < n)%nat -> (j < n)%nat -> nth i (values (c j)) 0 = if (i =? j)%nat then 1 else 0.
