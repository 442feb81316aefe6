(** Independent notions for merging points. *)
From Coq Require Import Reals List Permutation Sorting.Sorted.
Import ListNotations.
Open Scope R_scope.

(** The [d]-th coordinate of the [i]-th point. *)
Definition pt_coord (points : list (list R)) (i d : nat) : R := nth d (nth i points []) 0.
(** Coincident up to the tolerance in every coordinate. *)
Definition coincident (dim : nat) (points : list (list R)) (tol : R) (i j : nat) : Prop :=
  forall d, (d < dim)%nat -> Rabs (pt_coord points i d - pt_coord points j d) <= tol.
(** What a sorting routine guarantees: a permutation, sorted by the coordinate [d]. *)
Definition sorting_routine (points : list (list R)) (sort : nat -> list nat -> list nat) : Prop :=
  forall d l, Permutation (sort d l) l /\ StronglySorted (fun i j => pt_coord points i d <= pt_coord points j d) (sort d l).
(** Sorted by position. *)
Definition increasing (l : list nat) : Prop := StronglySorted lt l.
