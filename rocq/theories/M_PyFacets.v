(** python/qugar/mesh/mesh_facets.py: MeshFacets. A facet is a pair (cell id, local facet id); the two arrays of the class have the same
    length (checked by the constructor, mesh_facets.py 65-67) and are modelled as one list of pairs. The data types of the cell ids
    (int32/int64) are not modelled, nor are the asserts comparing them. *)
From Verif Require Import M_PyBase M_PyNodes.

Definition facet : Type := nat * nat.
Definition facet_eqb (a b : facet) : bool := (fst a =? fst b) && (snd a =? snd b).
(** Lexicographical order of rows (np.unique(axis=0)) and of structured arrays. *)
Definition facet_ltb (a b : facet) : bool := (fst a <? fst b) || ((fst a =? fst b) && (snd a <? snd b)).
Definition mem_f (x : facet) (l : list facet) : bool := existsb (facet_eqb x) l.
(** numpy's sort (insertion sort: any sorting algorithm gives the same list, equal facets being indistinguishable). *)
Fixpoint insert_f (x : facet) (l : list facet) : list facet :=
  match l with [] => [x] | y :: l' => if facet_ltb y x then y :: insert_f x l' else x :: l end.
Definition sort_f (l : list facet) : list facet := fold_right insert_f [] l.
(** Removal of equal neighbours, as in numpy's unique: aux[1:] != aux[:-1]. *)
Fixpoint dedup_f (l : list facet) : list facet :=
  match l with
  | [] => []
  | x :: l' => match l' with [] => [x] | y :: _ => if facet_eqb x y then dedup_f l' else x :: dedup_f l' end
  end.
(** np.unique. *)
Definition unique_f (l : list facet) : list facet := dedup_f (sort_f l).
(** mesh_facets.py 112-124: unique. *)
Definition mf_unique (l : list facet) : list facet := unique_f l.
(** mesh_facets.py 126-137: as_array. *)
Definition as_array (l : list facet) : list nat := flat_map (fun f => [fst f; snd f]) l.
(** mesh_facets.py 139-157: concatenate. *)
Definition mf_concatenate (a b : list facet) : list facet := a ++ b.
(** Entries followed by an equal one: aux[:-1][aux[1:] == aux[:-1]] of np.intersect1d. *)
Fixpoint repeated_f (l : list facet) : list facet :=
  match l with
  | [] => []
  | x :: l' => match l' with [] => [] | y :: _ => if facet_eqb x y then x :: repeated_f l' else repeated_f l' end
  end.
(** mesh_facets.py 159-202: intersect, np.intersect1d. *)
Definition mf_intersect (a b : list facet) (assume_unique : bool) : list facet :=
  let a' := if assume_unique then a else unique_f a in
  let b' := if assume_unique then b else unique_f b in
  repeated_f (sort_f (a' ++ b')).
(** mesh_facets.py 204-243: difference, np.setdiff1d. *)
Definition mf_difference (a b : list facet) (assume_unique : bool) : list facet :=
  let a' := if assume_unique then a else unique_f a in
  filter (fun x => negb (mem_f x b)) a'.
(** mesh_facets.py 267-275: the dictionary from facets to positions: a later position replaces an earlier one. *)
Fixpoint dict_get (x : facet) (k : nat) (l : list facet) : option nat :=
  match l with
  | [] => None
  | y :: l' => match dict_get x (S k) l' with Some i => Some i | None => if facet_eqb x y then Some k else None end
  end.
(** mesh_facets.py 245-291: find. *)
Definition mf_find (self other : list facet) : outcome (list nat) :=
  pmap (fun x => match dict_get x 0 self with Some i => Ret i | None => Abort end) other.

(** The topology of a DOLFINx mesh, as used here: the facets of each cell (connectivity(tdim, tdim-1)) and the cells of each facet
    (connectivity(tdim-1, tdim)). *)
Record topology := { cell_facets : list (list nat); facet_cells : list (list nat) }.
(** mesh_facets.py 337-358, 360-388: get_facet_ids. *)
Definition get_facet_ids (T : topology) (l : list facet) : outcome (list nat) :=
  pmap (fun f => fs <- pat (cell_facets T) (fst f) ;; pat fs (snd f)) l.
(** mesh_facets.py 390-439: create_facets_from_ids. The arrays of line 420-425 have room for one (two) entries per facet: writing beyond
    raises. *)
Definition create_facets_from_ids (T : topology) (ids : list nat) (single : bool) : outcome (list facet) :=
  ls <- pmap (fun f =>
    cs <- pat (facet_cells T) f ;;
    pmap (fun c => fs <- pat (cell_facets T) c ;; k <- where0 f fs ;; Ret (c, k)) (if single then firstn 1 cs else cs)) ids ;;
  let l := concat ls in
  assert_ (length l <=? (if single then length ids else length ids * 2)) (Ret l).

(** A process of a distributed mesh: its owned facets have the local ids 0, ..., size_local - 1 (ghosts follow) and the global ids
    local_range[0], ..., local_range[1] - 1 (dolfinx::common::IndexMap); the exterior facets it owns, by local id
    (dolfinx.mesh.exterior_facet_indices). *)
Record process := { topo : topology; range_begin : nat; range_end : nat; exterior : list nat }.
(** mesh_facets.py 441-454: create_exterior_mesh_facets. *)
Definition create_exterior_mesh_facets (p : process) : outcome (list facet) := create_facets_from_ids (topo p) (exterior p) true.
(** mesh_facets.py 456-486: create_interior_mesh_facets; 482 is np.setdiff1d(assume_unique=True). *)
Definition create_interior_mesh_facets (p : process) (single : bool) : outcome (list facet) :=
  create_facets_from_ids (topo p) (filter (fun f => negb (existsb (Nat.eqb f) (exterior p))) (arange (range_begin p) (range_end p) 1)) single.
(** mesh_facets.py 488-510: create_all_mesh_facets. *)
Definition create_all_mesh_facets (p : process) (single : bool) : outcome (list facet) :=
  create_facets_from_ids (topo p) (arange (range_begin p) (range_end p) 1) single.
