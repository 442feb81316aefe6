(** Specification vocabulary for the vertices of the box in the mesh of a region (C109). *)
From Coq Require Import Reals List Arith ZArith.
From Verif Require Import M_General S_General S_Geo.
Import ListNotations.
Local Close Scope Z_scope. Local Close Scope nat_scope. Local Open Scope R_scope.

(** The point is a vertex of the box. *)
Definition box_vertex (dom : bbox) (v : list R) : Prop :=
  length v = length (bmin dom) /\ forall d, (d < length v)%nat -> nth d v 0 = nth d (bmin dom) 0 \/ nth d v 0 = nth d (bmax dom) 0.
(** On the two sides of the box in direction k the function is, in absolute value, larger than eta. *)
Definition clear_sides (phi : list R -> R) (dom : bbox) (k : nat) (eta : R) : Prop :=
  forall x s, (s < 2)%nat -> in_box dom x -> nth k x 0 = side_coord dom s k -> eta < Rabs (phi x).
