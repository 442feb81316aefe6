(** Specification of tensor-product meshes. *)
From Coq Require Import List Arith Reals Permutation Sorting.Sorted ZArith.
From Verif Require Import S_PyTp.
Import ListNotations.

(** The nodes of a mesh of the given degree with n_d cells per direction form a grid with n_d * degree + 1 points per direction; node t of the
    cell c is the point degree * c + t of that grid. *)
Definition point_dims (degree : nat) (n : list nat) : list nat := map (fun k => k * degree + 1) n.
Definition point_of (degree : nat) (c t : list nat) : list nat := map (fun p => degree * fst p + snd p) (combine c t).
(** Its coordinates when the cells are the products of the intervals [b_i, b_{i+1}] between the breaks of every direction: equispaced in the
    interval. *)
Definition coordinates (breaks : list (list R)) (degree : nat) (c t : list nat) : list R :=
  map (fun d => let b := nth d breaks [] in let i := nth d c 0 in
     (nth i b 0 + INR (nth d t 0%nat) / INR degree * (nth (i + 1) b 0 - nth i b 0))%R) (seq 0 (length breaks)).
(** Number of cells per direction of given breaks. *)
Definition cells_of_breaks (breaks : list (list R)) : list nat := map (fun b => length b - 1) breaks.

(** [np.sort], [np.unique]. *)
Definition sorting (sort : list Z -> list Z) : Prop := forall l, Permutation (sort l) l /\ StronglySorted Z.le (sort l).
Definition uniques (unique : list Z -> list Z) : Prop := forall l, NoDup (unique l) /\ (forall x, In x (unique l) <-> In x l).
(** The local number (of basix) of the facet of a cell on the lexicographical side f: the facet all of whose vertices are on that side. *)
Definition local_facet (dim f k : nat) : Prop := k < 2 * dim /\ forall v, In v (nth k (basix_facets dim) []) -> side v (f / 2) = Nat.odd f.
