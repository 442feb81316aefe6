(** Specification vocabulary for the classification of facets from sample points. *)
From Verif Require Export M_Classify S_Grid.
Open Scope R_scope.

Section Samples.
Context (phi : list R -> R) (grad : list R -> list R) (dir side : nat) (q : rule).
(** Some sample is off the level set (beyond the default tolerance). *)
Definition some_off : Prop := exists x w, In (x, w) q /\ default_tol < Rabs (phi x).
(** The unit outward normal of the facet has the single non-zero component [outer] (-1 on side 0, +1 on side 1). *)
Definition outer : R := if Nat.eqb side 0 then -1 else 1.
(** Some sample on the level set has a gradient pointing out of (into) the cell, orthogonally to the facet. *)
Definition some_outward : Prop := exists x w, In (x, w) q /\ Rabs (phi x) <= default_tol /\ vec_norm (grad x) <> 0 /\
  Rabs (nth dir (grad x) 0 / vec_norm (grad x) - outer) <= default_tol.
Definition some_inward : Prop := exists x w, In (x, w) q /\ Rabs (phi x) <= default_tol /\ vec_norm (grad x) <> 0 /\
  Rabs (nth dir (grad x) 0 / vec_norm (grad x) + outer) <= default_tol.
(** The weights of the samples add up to the area of the facet. *)
Definition covers (area : R) : Prop :=
  let vol := fold_right (fun nw a => snd nw + a) 0 q in
  Rabs (vol - area) <= default_tol + 1000 * default_tol * Rmax (Rabs vol) (Rabs area).
End Samples.
