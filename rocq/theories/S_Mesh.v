(** Independent notions for reparameterization meshes. *)
From Coq Require Import Reals List Arith ZArith Permutation.
Import ListNotations.
Local Open Scope nat_scope.

(** A mesh given by its order, points, cell connectivity and wirebasket connectivity is valid: whole cells (order^dim points each) and
    whole edges (order points each), and every id refers to an existing point. *)
Definition valid (dim order : nat) (points : list (list R)) (conn wires : list nat) : Prop :=
  (2 <= order)%nat /\
  (exists n, length conn = n * order ^ dim)%nat /\ (exists n, length wires = n * order)%nat /\
  Forall (fun i => i < length points)%nat conn /\ Forall (fun i => i < length points)%nat wires.

(** The points of the [c]-th group of [n] ids (a cell or an edge). *)
Definition group_points (n : nat) (points : list (list R)) (conn : list nat) (c : nat) : list (list R) :=
  map (fun k => nth (nth (c * n + k) conn 0%nat) points []) (seq 0 n).
(** The ids of the [c]-th group of [n] ids. *)
Definition group_ids (n : nat) (conn : list nat) (c : nat) : list nat := map (fun k => nth (c * n + k) conn 0%nat) (seq 0 n).

(** Position in a cell of the point with index (i0,i1,..): direction 0 runs fastest. *)
Fixpoint position (order : nat) (t : list nat) : nat := match t with [] => 0 | i :: t' => i + order * position order t' end.
(** The index of the [i]-th point of an edge.  2D: edges 0,1 are the sides of direction 0, edges 2,3 those of direction 1.  3D: edges
    0-3 run along direction 2, 4-7 along direction 1, 8-11 along direction 0; the two lowest bits of the edge are the sides. *)
Definition side_ind (order side : nat) : nat := match side with 0 => 0 | _ => order - 1 end.
Definition edge_point (dim order edge i : nat) : list nat :=
  let s0 := side_ind order (edge mod 2) in let s1 := side_ind order ((edge / 2) mod 2) in
  match dim with
  | 2 => if Nat.ltb edge 2 then [s0; i] else [i; s0]
  | _ => if Nat.ltb edge 4 then [s0; s1; i] else if Nat.ltb edge 8 then [s0; i; s1] else [i; s0; s1]
  end.
Definition edge_count (dim : nat) : nat := match dim with 2 => 4 | _ => 12 end.

(** Same edge up to reversal. *)
Definition same_edge (e f : list nat) : Prop := e = f \/ e = rev f.

(** What a sorting routine guarantees for a comparison "less than": a permutation in which no element is less than the one before. *)
Fixpoint no_descent {A} (less : A -> A -> bool) (l : list A) : Prop :=
  match l with a :: ((b :: _) as l') => less b a = false /\ no_descent less l' | _ => True end.
Definition sorts_by {A} (less : A -> A -> bool) (sort : list A -> list A) : Prop := forall l, Permutation (sort l) l /\ no_descent less (sort l).

(** The change of variables of permute_cell_directions: reversal in 1D, exchange of the first two directions otherwise. *)
Definition flip (order : nat) (t : list nat) : list nat :=
  match t with
  | [i] => [order - 1 - i]
  | a :: b :: t' => b :: a :: t'
  | [] => []
  end.
(** An index of a point of a cell. *)
Definition is_index (dim order : nat) (t : list nat) : Prop := length t = dim /\ Forall (fun i => i < order)%nat t.

(** The position VTK gives to the point of tensor index (i), (i,j), (i,j,k) of a Lagrange curve, quadrilateral, hexahedron with [order]
    points per direction (vtkHigherOrderHexahedron::PointIndexFromIJK): vertices, edges, faces, interior. *)
Definition vtk1 (order i : nat) : nat := if i =? 0 then 0 else if i =? order - 1 then 1 else i + 1.
Definition vtk2 (order i j : nat) : nat :=
  let n := order - 2 in let on x := orb (x =? 0) (x =? order - 1) in let up x := negb (x =? 0) in
  match on i, on j with
  | true, true => if up i then (if up j then 2 else 1) else if up j then 3 else 0
  | false, true => 4 + (i - 1) + (if up j then 2 * n else 0)
  | true, false => 4 + (j - 1) + (if up i then n else 3 * n)
  | false, false => 4 + 4 * n + (i - 1) + n * (j - 1)
  end.
Definition vtk3 (order i j k : nat) : nat :=
  let n := order - 2 in let on x := orb (x =? 0) (x =? order - 1) in let up x := negb (x =? 0) in
  match on i, on j, on k with
  | true, true, true => (if up i then (if up j then 2 else 1) else if up j then 3 else 0) + (if up k then 4 else 0)
  | false, true, true => 8 + (i - 1) + (if up j then 2 * n else 0) + (if up k then 4 * n else 0)
  | true, false, true => 8 + (j - 1) + (if up i then n else 3 * n) + (if up k then 4 * n else 0)
  | true, true, false => 8 + 8 * n + (k - 1) + (if up i then (if up j then 3 * n else n) else if up j then 2 * n else 0)
  | true, false, false => 8 + 12 * n + (j - 1) + n * (k - 1) + (if up i then n * n else 0)
  | false, true, false => 8 + 12 * n + 2 * (n * n) + (i - 1) + n * (k - 1) + (if up j then n * n else 0)
  | false, false, true => 8 + 12 * n + 4 * (n * n) + (i - 1) + n * (j - 1) + (if up k then n * n else 0)
  | false, false, false => 8 + 12 * n + 6 * (n * n) + (i - 1) + n * ((j - 1) + n * (k - 1))
  end.
Definition vtk_index (order : nat) (t : list nat) : nat :=
  match t with [i] => vtk1 order i | [i; j] => vtk2 order i j | [i; j; k] => vtk3 order i j k | _ => 0 end.

(** Points of an edge are on a side of a box, up to a tolerance: 0 the lower side, 1 the upper side (only when not on the lower one). *)
Definition near (tol x y : R) : Prop := (Rabs (x - y) <= tol)%R.
Definition on_side (tol : R) (lo hi : list R) (d : nat) (upper : bool) (p : list R) : Prop :=
  if upper then ~ near tol (nth d p 0%R) (nth d lo 0%R) /\ near tol (nth d p 0%R) (nth d hi 0%R) else near tol (nth d p 0%R) (nth d lo 0%R).
(** [p] is on the same side as [p0] in direction [d]; in at least [k] directions out of [range]. *)
Definition share_side (tol : R) (lo hi : list R) (p0 p : list R) (d : nat) : Prop := exists u, on_side tol lo hi d u p0 /\ on_side tol lo hi d u p.
Definition share_sides (range : nat) (tol : R) (lo hi : list R) (k : nat) (p0 p : list R) : Prop :=
  exists ds, NoDup ds /\ length ds = k /\ forall d, In d ds -> d < range /\ share_side tol lo hi p0 p d.
(** All points of the edge are the same point. *)
Definition collapsed (range : nat) (tol : R) (ps : list (list R)) : Prop :=
  forall p, In p ps -> forall d, d < range -> near tol (nth d (hd [] ps) 0%R) (nth d p 0%R).
(** The edges of the wirebasket: not collapsed, and either all points share range-1 sides of the box with the first one (a box edge),
    or they all share one side with the first one and satisfy the face check, or not, and they satisfy the internal check. *)
Definition wire_edge (range : nat) (tol : R) (lo hi : list R) (check_face check_internal : list R -> bool) (ps : list (list R)) : Prop :=
  ~ collapsed range tol ps /\
  ((forall p, In p ps -> share_sides range tol lo hi (range - 1) (hd [] ps) p) \/
   ((forall p, In p ps -> share_sides range tol lo hi 1 (hd [] ps) p) /\ forall p, In p ps -> check_face p = true) \/
   (~ (forall p, In p ps -> share_sides range tol lo hi 1 (hd [] ps) p) /\ forall p, In p ps -> check_internal p = true)).
