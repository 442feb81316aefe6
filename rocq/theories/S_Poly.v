(** Specification of tensor-product polynomials: the textbook expansions. *)
From Coq Require Import Binomial.
From Verif Require Export M_Real M_TensorNat.
From Verif Require Import M_Poly.
Open Scope R_scope.

(** A polynomial object built by the constructors: at least one direction, positive orders, one coefficient per tensor index. *)
Definition valid_poly (p : poly) : Prop :=
  p_order p <> [] /\ Forall (fun o => (0 < o)%nat) (p_order p) /\ length (p_coefs p) = tp_size (p_order p).
(** The i-th Bernstein polynomial of [order] n+1 (degree n): C(n, i) x^i (1-x)^(n-i). *)
Definition bernstein (order i : nat) (x : R) : R := C (order - 1) i * x ^ i * (1 - x) ^ (order - 1 - i).
(** The i-th monomial. *)
Definition monomial (order i : nat) (x : R) : R := x ^ i.
(** The product over the directions of the basis functions of index [t]. *)
Definition basis_term (basis : nat -> nat -> R -> R) (order t : list nat) (x : list R) : R :=
  fold_right Rmult 1 (map (fun d => basis (nth d order O) (nth d t O) (nth d x 0)) (seq 0 (length order))).
(** The sum over all tensor indices of coefficient times basis function. *)
Definition expansion (basis : nat -> nat -> R -> R) (p : poly) (x : list R) : R :=
  fold_right Rplus 0 (map (fun t => nth (tp_flat (p_order p) t) (p_coefs p) 0 * basis_term basis (p_order p) t x) (tp_all (p_order p))).
(** The unit box. *)
Definition in_unit_box (x : list R) : Prop := Forall (fun xi => 0 <= xi <= 1) x.
(** Insert a coordinate. *)
Definition insert_at (d : nat) (a : R) (x : list R) : list R := firstn d x ++ a :: skipn d x.
