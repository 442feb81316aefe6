(** Specification of the maps of facet points: embedding of a facet in the reference cell, symmetries of a facet. *)
From Coq Require Import List Reals Arith.
From Verif Require Import M_PyQuadUtils.
Import ListNotations.
Local Open Scope R_scope.

(** The point with the coordinate [s] inserted at position [d]. *)
Definition insert_coord (d : nat) (s : R) (x : vec) : vec := firstn d x ++ s :: skipn d x.
(** Dimension of the reference cell. *)
Definition tdim (c : celltype) : nat := match c with CInterval => 1 | CTriangle | CQuadrilateral => 2 | CTetrahedron | CHexahedron => 3 end.
Definition n_facets (c : celltype) : nat := match c with CInterval => 2 | CTriangle => 3 | CTetrahedron => 4 | CQuadrilateral => 4 | CHexahedron => 6 end.
(** The facet f of an interval, square or cube in DOLFINx' numbering: its normal direction and side. In dimension n the facets 0..n-1 are the
    sides x_d = 0 with d = n-1, ..., 0, the facets n..2n-1 the sides x_d = 1 with d = 0, ..., n-1. *)
Definition hyper_facet (n f : nat) : nat * R := if (f <? n)%nat then ((n - 1 - f)%nat, 0) else ((f - n)%nat, 1).
(** A point of the reference facet seen on the facet f of the reference cell: in an interval, square or cube the constant coordinate is
    inserted; in a simplex the facet f is opposite to the vertex f: facet 0 is the set of points with sum 1, the facet f > 0 is x_(f-1) = 0. *)
Definition embed (c : celltype) (f : nat) (x : vec) : vec :=
  match c with
  | CTriangle | CTetrahedron => match f with O => (1 - fold_right Rplus 0 x) :: x | S d => insert_coord d 0 x end
  | _ => let ds := hyper_facet (tdim c) f in insert_coord (fst ds) (snd ds) x
  end.
(** The symmetries of a facet as FFCx numbers them: the number is 2 * rotations + reflections; the rotations come first. *)
Definition rotate (fc : celltype) (x : vec) : vec :=
  match fc, x with
  | CTriangle, [a; b] => [b; 1 - a - b]
  | CQuadrilateral, [a; b] => [b; 1 - a]
  | _, _ => x
  end.
Definition reflect (x : vec) : vec := match x with [a] => [1 - a] | [a; b] => [b; a] | _ => x end.
Definition moved (fc : celltype) (p : nat) (x : vec) : vec := Nat.iter (p mod 2) reflect (Nat.iter (p / 2) (rotate fc) x).
Definition n_perms (fc : celltype) : nat := match fc with CInterval => 2 | CTriangle => 6 | CQuadrilateral => 8 | _ => 1 end.
(** A point of the closed reference facet. *)
Definition in_ref (fc : celltype) (x : vec) : Prop :=
  length x = tdim fc /\ Forall (fun t => 0 <= t <= 1) x /\ match fc with CTriangle | CTetrahedron => fold_right Rplus 0 x <= 1 | _ => True end.
(** The points of the facet f of the reference cell. *)
Definition on_facet (c : celltype) (f : nat) (y : vec) : Prop :=
  match c with
  | CTriangle | CTetrahedron => match f with O => fold_right Rplus 0 y = 1 | S d => nth d y 1 = 0 end
  | _ => let ds := hyper_facet (tdim c) f in nth (fst ds) y 2 = snd ds
  end.
(** The vertices of the reference facets, in the order of basix. *)
Definition facet_vertices (c : celltype) : list vec :=
  match c with
  | CInterval => [[]]
  | CTriangle | CQuadrilateral => [[0]; [1]]
  | CTetrahedron => [[0; 0]; [1; 0]; [0; 1]]
  | CHexahedron => [[0; 0]; [1; 0]; [0; 1]; [1; 1]]
  end.
(** A point of the closed reference facet of a cell. *)
Definition in_facet (c : celltype) (x : vec) : Prop := match facet_cell c with Some fc => in_ref fc x | None => x = [] end.
