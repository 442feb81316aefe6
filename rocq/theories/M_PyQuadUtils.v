(** python/qugar/dolfinx/custom_quad_utils.py: quadrature points of a facet moved to the reference cell.
    A point is the list of its coordinates; coordinates are real numbers (no rounding). *)
From Coq Require Import Reals.
From Verif Require Import M_PyBase.
Local Open Scope R_scope.

Notation vec := (list R) (only parsing).
Inductive celltype := CInterval | CTriangle | CTetrahedron | CQuadrilateral | CHexahedron.
(** basix.geometry: the vertices of the reference cells (data of basix, used in custom_quad_utils.py 45-46). *)
Definition geometry (c : celltype) : list vec :=
  match c with
  | CInterval => [[0]; [1]]
  | CTriangle => [[0; 0]; [1; 0]; [0; 1]]
  | CTetrahedron => [[0; 0; 0]; [1; 0; 0]; [0; 1; 0]; [0; 0; 1]]
  | CQuadrilateral => [[0; 0]; [1; 0]; [0; 1]; [1; 1]]
  | CHexahedron => [[0; 0; 0]; [1; 0; 0]; [0; 1; 0]; [1; 1; 0]; [0; 0; 1]; [1; 0; 1]; [0; 1; 1]; [1; 1; 1]]
  end.
(** basix.topology(cell)[-2]: the vertices of every facet (data of basix, used in custom_quad_utils.py 48). *)
Definition facet_topology (c : celltype) : list (list nat) :=
  match c with
  | CInterval => [[0]; [1]]
  | CTriangle => [[1; 2]; [0; 2]; [0; 1]]
  | CTetrahedron => [[1; 2; 3]; [0; 2; 3]; [0; 1; 3]; [0; 1; 2]]
  | CQuadrilateral => [[0; 1]; [0; 2]; [1; 3]; [2; 3]]
  | CHexahedron => [[0; 1; 2; 3]; [0; 1; 4; 5]; [0; 2; 4; 6]; [1; 3; 5; 7]; [2; 3; 6; 7]; [4; 5; 6; 7]]
  end%nat.
Definition vsub (a b : vec) : vec := map (fun p => fst p - snd p) (combine a b).
(** a + t * d *)
Definition vaxpy (t : R) (a d : vec) : vec := map (fun p => fst p + t * snd p) (combine a d).
(** 55-61: the loop over the directions of the facet: [vs] are facet_vertices[1], facet_vertices[2], ... *)
Fixpoint add_dirs (origin : vec) (vs : list vec) (x : vec) (acc : vec) : outcome vec :=
  match x with
  | [] => Ret acc
  | t :: x' => match vs with [] => Abort | v :: vs' => add_dirs origin vs' x' (vaxpy t acc (vsub v origin)) end
  end.
(** 27-63: _map_single_facet_points, for one point. The assertion of line 51 compares the number of coordinates. *)
Definition map_single_facet_point (c : celltype) (f : nat) (x : vec) : outcome vec :=
  ids <- pat (facet_topology c) f ;;
  vs <- take_ids (geometry c) ids ;;
  match vs with
  | [] => Abort
  | origin :: vs' => assert_ (length origin - 1 =? length x)%nat (add_dirs origin vs' x origin)
  end.

(** numpy [cur[ids, :] = g(src[ids, :])] for the ids where [keys == k]. *)
Fixpoint put_where {S} (k : nat) (g : S -> outcome vec) (keys : list nat) (src : list S) (cur : list vec) : outcome (list vec) :=
  match keys, src, cur with
  | k' :: keys', s :: src', c :: cur' =>
      y <- (if (k' =? k)%nat then g s else Ret c) ;;
      r <- put_where k g keys' src' cur' ;;
      Ret (y :: r)
  | _, _, _ => Ret []
  end.
(** 66-100: map_facets_points. [junk] are the rows of the uninitialised array of line 94; the order of np.unique
    has no influence. *)
Fixpoint map_facets_loop (c : celltype) (us keys : list nat) (pts cur : list vec) : outcome (list vec) :=
  match us with
  | [] => Ret cur
  | f :: us' => cur' <- put_where f (map_single_facet_point c f) keys pts cur ;; map_facets_loop c us' keys pts cur'
  end.
Definition map_facets_points (c : celltype) (junk : nat -> vec) (pts : list vec) (facets : list nat) : outcome (list vec) :=
  assert_ (length facets =? length pts)%nat (map_facets_loop c (nodup Nat.eq_dec facets) facets pts (map junk (seq 0 (length pts)))).

(** Matrices by rows. *)
Definition dot (a b : vec) : R := fold_right Rplus 0 (map (fun p => fst p * snd p) (combine a b)).
Definition matT (n : nat) (B : list vec) : list vec := map (fun j => map (fun r => nth j r 0) B) (seq 0 n).
Definition matmul (A B : list vec) : list vec := map (fun r => map (dot r) (matT (length B) B)) A.
Definition eye (n : nat) : list vec := map (fun i => map (fun j => if (i =? j)%nat then 1 else 0) (seq 0 n)) (seq 0 n).
(** 103-157: _create_permutation_operators. [fc] is the type of the facet (a UFL cell). The test of line 154 compares
    the UFL cell with a string, which is never equal: the last two operators are never appended. Point facets raise. *)
Definition create_permutation_operators (fc : celltype) : outcome (list (list vec)) :=
  let ops (Rt : list vec) :=
    let Rf := [[0; 1; 0]; [1; 0; 0]; [0; 0; 1]] in
    let Rt2 := matmul Rt Rt in
    let RfRt2 := matmul Rf Rt2 in
    [eye 3; Rf; Rt; matmul Rf Rt; Rt2; RfRt2] in
  match fc with
  | CInterval => Ret [eye 2; [[-1; 1]; [0; 1]]]
  | CTriangle => Ret (ops [[0; 1; 0]; [-1; -1; 1]; [0; 0; 1]])
  | CQuadrilateral => Ret (ops [[0; 1; 0]; [-1; 0; 1]; [0; 0; 1]])
  | _ => Abort
  end.
(** 194-195: one row of [hom_points[ids, :] @ Ps[perm].T[:, :-1]]; 184: the homogeneous coordinates. *)
Definition apply_perm (P : list vec) (x : vec) : vec := removelast (map (dot (x ++ [1])) P).
(** 160-197: _permute_points. *)
Fixpoint permute_loop (Ps : list (list vec)) (us perms : list nat) (pts cur : list vec) : outcome (list vec) :=
  match us with
  | [] => Ret cur
  | k :: us' =>
      if (k =? 0)%nat then permute_loop Ps us' perms pts cur
      else P <- pat Ps k ;; cur' <- put_where k (fun x => Ret (apply_perm P x)) perms pts cur ;; permute_loop Ps us' perms pts cur'
  end.
Definition permute_points (fc : celltype) (pts : list vec) (perms : list nat) : outcome (list vec) :=
  assert_ (length pts =? length perms)%nat
    (Ps <- create_permutation_operators fc ;; permute_loop Ps (nodup Nat.eq_dec perms) perms pts pts).
(** UFL: cell.sub_entity_types(tdim - 1)[0], used in 247-249. *)
Definition facet_cell (c : celltype) : option celltype :=
  match c with
  | CTriangle | CQuadrilateral => Some CInterval
  | CTetrahedron => Some CTriangle
  | CHexahedron => Some CQuadrilateral
  | CInterval => None
  end.
(** 200-229: _get_facet_permutations; [all_perms] is get_facet_permutations() of DOLFINx, one row per cell. *)
Definition get_facet_permutations (all_perms : list (list nat)) (cells facets : list nat) : outcome (list nat) :=
  assert_ (length cells =? length facets)%nat
    (pmap (fun cf => row <- pat all_perms (fst cf) ;; pat row (snd cf)) (combine cells facets)).
(** 232-253: permute_facet_points. *)
Definition permute_facet_points (c : celltype) (all_perms : list (list nat)) (pts : list vec) (cells facets : list nat) : outcome (list vec) :=
  perms <- get_facet_permutations all_perms cells facets ;;
  match facet_cell c with Some fc => permute_points fc pts perms | None => Abort end.
