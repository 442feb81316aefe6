(** Specification of sets of facets and of mesh topologies. *)
From Coq Require Import List Arith Sorting.Sorted.
From Verif Require Import M_PyFacets.
Import ListNotations.

(** Increasing order of facets: by cell, then by local facet. *)
Definition facet_lt (a b : nat * nat) : Prop := fst a < fst b \/ (fst a = fst b /\ snd a < snd b).
(** The increasing list, without repetitions, of the facets satisfying P. *)
Definition lists_facets (P : nat * nat -> Prop) (l : list (nat * nat)) : Prop := StronglySorted facet_lt l /\ forall x, In x l <-> P x.

(** [l] is in facet (cell c, local facet k) of the mesh. *)
Definition is_facet (T : topology) (f c k : nat) : Prop := exists fs, nth_error (cell_facets T) c = Some fs /\ nth_error fs k = Some f.
(** The two connectivities of a mesh are transposed to each other; the facets of a cell are distinct; a facet has one or two cells. *)
Definition mesh_topology (T : topology) : Prop :=
  (forall f cs, nth_error (facet_cells T) f = Some cs -> NoDup cs /\ 1 <= length cs <= 2 /\ forall c, In c cs <-> exists k, is_facet T f c k)
  /\ (forall c fs, nth_error (cell_facets T) c = Some fs -> NoDup fs).

(** A process of a distributed mesh: the facets it owns have the first local ids (ghost facets follow); the exterior facets are among them. *)
Definition owned (p : process) (f : nat) : Prop := f < range_end p - range_begin p.
Definition mesh_process (p : process) : Prop :=
  mesh_topology (topo p) /\ range_begin p <= range_end p /\ range_end p - range_begin p <= length (facet_cells (topo p))
  /\ NoDup (exterior p) /\ forall f, In f (exterior p) -> owned p f.
(** [l] holds the facets satisfying P: with [single], one entry for each; otherwise one entry for each of their cells; no repetitions. *)
Definition facets_of (T : topology) (P : nat -> Prop) (single : bool) (l : list (nat * nat)) : Prop :=
  NoDup l /\ (forall x, In x l -> exists f, P f /\ is_facet T f (fst x) (snd x))
  /\ (forall f, P f -> exists x, In x l /\ is_facet T f (fst x) (snd x))
  /\ (forall f x y, In x l -> is_facet T f (fst x) (snd x) -> is_facet T f (fst y) (snd y) -> if single then In y l -> x = y else In y l).
