(** Specification vocabulary for the number of cells of a Bezier reparameterization in the plane (C107). *)
From Coq Require Import Reals List ZArith Arith Sorted.
From Verif Require Import M_BzReparam S_BzReparam S_BzGeo.
Import ListNotations.
Local Close Scope Z_scope. Local Close Scope nat_scope. Local Open Scope R_scope.

(** The cuts of the base, ascending and further apart than the tolerance; over each piece of the base, the zeros of the polynomial form graphs, and [signs] says for each layer
    between two graphs whether the polynomial is positive there. *)
Record cut_into {P} (Z : bz_oracles P) (p : P) (k : nat) (cs : list R) (signs : list (list bool)) : Prop := mk_ci {
  ci_apart : StronglySorted (fun u v => u + tiny < v) cs;
  ci_cuts : forall x, In x cs <-> cut Z p k x;
  ci_count : length cs = S (length signs);
  ci_layers : forall i, (i < length signs)%nat -> let a := nth i cs 0 in let b := nth (S i) cs 0 in
    exists ys, layered (height_value Z p k) a b ys (nth i signs []) /\ separated ys (/ 2 * (a + b)) }.
(** Layers where the polynomial is negative; pairs of neighbouring layers of different sign. *)
Definition negative_layers (positive : list bool) : nat := length (filter negb positive).
Fixpoint sign_changes (positive : list bool) : nat :=
  match positive with s :: ((t :: _) as rest) => (if Bool.eqb s t then sign_changes rest else S (sign_changes rest)) | _ => 0%nat end.
Definition total (g : list bool -> nat) (signs : list (list bool)) : nat := fold_right (fun s n => (g s + n)%nat) 0%nat signs.
