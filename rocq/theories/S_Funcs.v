(** Independent notions for the level-set functions. *)
From Coq Require Import Reals List.
From Verif Require Import S_Affine.
Import ListNotations.
Open Scope R_scope.

(** Euclidean distance of two points. *)
Definition edist (p q : list R) : R := sqrt (fold_right Rplus 0 (map (fun i => (nth i p 0 - nth i q 0) * (nth i p 0 - nth i q 0)) (seq 0 (length p)))).
(** The point [o + t a]. *)
Definition on_line (o a : list R) (t : R) : list R := map (fun i => nth i o 0 + t * nth i a 0) (seq 0 (length o)).
(** [q] is on the circle of radius [R0] around [c], in the plane orthogonal to [a] (3D). *)
Definition on_circle (c a : list R) (R0 : R) (q : list R) : Prop :=
  length q = 3%nat /\ edist q c = R0 /\ fold_right Rplus 0 (map (fun i => (nth i q 0 - nth i c 0) * nth i a 0) (seq 0 3)) = 0.
(** The point with coordinates [u] in the frame of origin [o] and axes [basis]. *)
Definition in_frame (o : list R) (basis : list (list R)) (u : list R) : list R :=
  map (fun j => nth j o 0 + fold_right Rplus 0 (map (fun i => nth i u 0 * nth j (nth i basis []) 0) (seq 0 (length basis)))) (seq 0 (length o)).
(** Correct derivatives at one point and everywhere. *)
Definition grad_ok (d : nat) (f : list R -> R) (g : list R -> list R) : Prop := forall p, length p = d -> has_gradient d f p (g p).
Definition hess_ok (d : nat) (f : list R -> R) (h : list R -> list R) : Prop := forall p, length p = d -> has_hessian d f p (h p).
(** Semi-axes, origin and axes of a frame have the right lengths. *)
Definition frame_ok (d : nat) (semi_axes origin : list R) (basis : list (list R)) : Prop :=
  length semi_axes = d /\ length origin = d /\ length basis = d /\ Forall (fun b => length b = d) basis.
