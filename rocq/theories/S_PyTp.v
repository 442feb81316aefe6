(** Specification of tensor-product indices and of the entities of the reference cell. *)
From Coq Require Import List Arith Bool Permutation Sorting.Sorted.
Import ListNotations.

(** A tensor index of a grid with n_d indices per direction, and its lexicographical (first direction fastest) position. *)
Definition index (n t : list nat) : Prop := Forall2 lt t n.
Fixpoint flat (n t : list nat) : nat :=
  match n, t with k :: n', i :: t' => i + k * flat n' t' | _, _ => 0 end.
(** The lower (false) or upper (true) end of direction d. *)
Definition end_of (n : list nat) (d : nat) (up : bool) : nat := if up then nth d n 0 - 1 else 0.

(** Vertices of the cell are numbered by their bits: bit d says on which side of direction d. *)
Definition side (v d : nat) : bool := Nat.testbit v d.
(** An index lies on the entity spanned by the vertices [vs]: in the directions in which all the vertices are on the same side, it is at
    the end of that side. *)
Definition on_entity (n : list nat) (vs t : list nat) : Prop :=
  forall d up, d < length n -> (forall v, In v vs -> side v d = up) -> nth d t 0 = end_of n d up.
(** The increasing list of the positions of the indices satisfying P. *)
Definition lists_exactly (n : list nat) (P : list nat -> Prop) (l : list nat) : Prop :=
  StronglySorted lt l /\ (forall k, In k l <-> exists t, index n t /\ P t /\ k = flat n t).

(** Lexicographical faces: umin, umax, vmin, vmax, wmin, wmax. *)
Definition on_lex_face (n : list nat) (f : nat) (t : list nat) : Prop := nth (f / 2) t 0 = end_of n (f / 2) (Nat.odd f).
(** Lexicographical edges of the hexahedron: four along w, four along v, four along u; among four, by the ends of the other two directions. *)
Definition lex_edges : list (list nat) :=
  [ [0;4]; [1;5]; [2;6]; [3;7];   [0;2]; [1;3]; [4;6]; [5;7];   [0;1]; [2;3]; [4;5]; [6;7] ].

(** The tables of basix (https://github.com/FEniCS/basix/#supported-elements): vertices of the facets and edges of the interval, the
    quadrilateral, the hexahedron. *)
Definition basix_facets (dim : nat) : list (list nat) :=
  match dim with
  | 1 => [ [0]; [1] ]
  | 2 => [ [0;1]; [0;2]; [1;3]; [2;3] ]
  | _ => [ [0;1;2;3]; [0;1;4;5]; [0;2;4;6]; [1;3;5;7]; [2;3;6;7]; [4;5;6;7] ]
  end.
Definition basix_edges (dim : nat) : list (list nat) :=
  match dim with
  | 1 => [ [0]; [1] ]
  | 2 => basix_facets 2
  | _ => [ [0;1]; [0;2]; [0;4]; [1;3]; [1;5]; [2;3]; [2;6]; [3;7]; [4;5]; [4;6]; [5;7]; [6;7] ]
  end.

(** The facets of VTK's line, quadrilateral and hexahedron, in the numbering of the vertices used here (VTK itself numbers the vertices
    counter-clockwise: its 2 and 3, 6 and 7 are our 3 and 2, 7 and 6); also the order of the facets in vtk_order below. *)
Definition vtk_facets (dim : nat) : list (list nat) :=
  match dim with
  | 1 => [ [0]; [1] ]
  | 2 => [ [0;1]; [1;3]; [2;3]; [0;2] ]
  | _ => [ [0;2;4;6]; [1;3;5;7]; [0;1;4;5]; [2;3;6;7]; [0;1;2;3]; [4;5;6;7] ]
  end.

(** Node of a cell of the given degree: the coordinate in direction d is the parameter a (resp. b) when the entity goes from its first
    to its second (resp. third) vertex in that direction, otherwise the end of the first vertex. *)
Definition node (degree dim : nat) (vs : list nat) (a b : nat) : list nat :=
  map (fun d =>
    let v0 := nth 0 vs 0 in let v1 := nth 1 vs v0 in let v2 := nth 2 vs v0 in
    if xorb (side v0 d) (side v1 d) then a else if xorb (side v0 d) (side v2 d) then b else if side v0 d then degree else 0) (seq 0 dim).
(** Nodes in the interior of an edge (from its first vertex on) and of a face (from the first vertex on, the second vertex' direction
    fastest). *)
Definition edge_nodes (degree dim : nat) (vs : list nat) : list (list nat) :=
  map (fun a => node degree dim vs a 0) (seq 1 (degree - 1)).
Definition face_nodes (degree dim : nat) (vs : list nat) : list (list nat) :=
  flat_map (fun b => map (fun a => node degree dim vs a b) (seq 1 (degree - 1))) (seq 1 (degree - 1)).
(** The interior nodes of the cell, first direction fastest. *)
Definition interior_nodes (degree dim : nat) : list (list nat) :=
  let r := seq 1 (degree - 1) in
  match dim with
  | 1 => map (fun u => [u]) r
  | 2 => flat_map (fun v => map (fun u => [u; v]) r) r
  | _ => flat_map (fun w => flat_map (fun v => map (fun u => [u; v; w]) r) r) r
  end.
(** The order of the nodes of a Lagrange cell: vertices, edges, faces, interior, given the tables of vertices. *)
Definition lagrange_order (degree dim : nat) (vertices : list nat) (edges faces : list (list nat)) : list (list nat) :=
  map (fun v => node degree dim [v] 0 0) vertices ++ flat_map (edge_nodes degree dim) edges
  ++ flat_map (face_nodes degree dim) faces ++ interior_nodes degree dim.
(** basix: vertices in binary order. *)
Definition basix_order (degree dim : nat) : list (list nat) :=
  match dim with
  | 1 => lagrange_order degree 1 [0;1] [] []
  | 2 => lagrange_order degree 2 [0;1;2;3] (basix_edges 2) []
  | _ => lagrange_order degree 3 [0;1;2;3;4;5;6;7] (basix_edges 3) (basix_facets 3)
  end.
(** VTK's arbitrary-order Lagrange cells: vertices counter-clockwise, edges in increasing parameter; the edges along w in the
    counter-clockwise order of the vertices; the faces in the order umin, umax, vmin, vmax, wmin, wmax. *)
Definition vtk_order (degree dim : nat) : list (list nat) :=
  match dim with
  | 1 => lagrange_order degree 1 [0;1] [] []
  | 2 => lagrange_order degree 2 [0;1;3;2] (vtk_facets 2) []
  | _ => lagrange_order degree 3 [0;1;3;2;4;5;7;6]
           [ [0;1]; [1;3]; [2;3]; [0;2]; [4;5]; [5;7]; [6;7]; [4;6]; [0;4]; [1;5]; [3;7]; [2;6] ]
           (vtk_facets 3)
  end.

(** [p] and [q] are inverse renumberings of n things. *)
Definition renumbering (n : nat) (p : list nat) : Prop := Permutation p (seq 0 n).
Definition inverse (n : nat) (p q : list nat) : Prop :=
  length p = n /\ length q = n /\ forall i, i < n -> nth i p n < n /\ nth i q n < n /\ nth (nth i p n) q n = i /\ nth (nth i q n) p n = i.

(** Indices on the boundary of the grid (at an end of some direction), and the others. *)
Definition on_boundary (n t : list nat) : Prop := exists d, d < length n /\ (nth d t 0 = 0 \/ nth d t 0 = nth d n 0 - 1).
Definition internal (n t : list nat) : Prop := forall d, d < length n -> 0 < nth d t 0 < nth d n 0 - 1.
