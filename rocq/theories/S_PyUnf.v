(** Specification of an unfitted domain on the part of a mesh held by a process. *)
From Coq Require Import List ZArith.
From Verif Require Import S_Domain S_PyTpMesh S_PyMesh S_PyFacets M_PyMesh M_PyFacets M_PyUnf.
Import ListNotations.
Local Open Scope Z_scope.

(** The process owns its first [n_local] cells (ghosts follow); its cells are cells of the grid of the domain. *)
Definition domain_on (g : grid) (D : domain) (m : mesh) (n_local : nat) : Prop :=
  (exists sign ccell cfacet s, built g sign ccell cfacet D s) /\ cells_of_process m (Z.to_nat (num_cells g)) /\ (n_local <= length (original_cell_index m))%nat.
(** The status of cells of the C++ object, by its public queries. *)
Definition cell_query (D : domain) (st : cstatus) : Z -> outcome bool :=
  match st with Cfull => is_full_cell D | Cempty => is_empty_cell D | _ => is_cut_cell D end.

(** The facets of the process: the facet topology of its cells, two facets per cell and direction; an exterior facet has one cell. *)
Definition facets_on (g : grid) (p : process) (m : mesh) : Prop :=
  (2 <= length (breaks g) <= 3)%nat /\ mesh_process p /\ length (cell_facets (topo p)) = length (original_cell_index m)
  /\ (forall fs, In fs (cell_facets (topo p)) -> length fs = (2 * length (breaks g))%nat)
  /\ (forall f, In f (exterior p) -> exists c, nth_error (facet_cells (topo p)) f = Some [c]).
(** (cell, local facet) is an owned facet of the given type. *)
Definition mesh_facet (p : process) (ty : ftype) (x : nat * nat) : Prop :=
  exists f, is_facet (topo p) f (fst x) (snd x) /\ owned p f /\ match ty with Exterior => In f (exterior p) | Interior => ~ In f (exterior p) | AllFacets => True end.
(** The C++ object answers yes to the query for the facet of the original cell that is (cell, local facet) in the process. *)
Definition on_facet (g : grid) (m : mesh) (query : Z -> Z -> outcome bool) (x : nat * nat) : Prop :=
  exists c f, original_of m (Z.of_nat (fst x)) c /\ (f < 2 * length (breaks g))%nat /\ local_facet (length (breaks g)) f (snd x) /\ query c (Z.of_nat f) = Ret true.

(** What the getters should list, from their docstrings. *)
Section Lists.
  Variables (g : grid) (p : process) (m : mesh) (D : domain).
  Definition wanted (w : which) (ext_integral : bool) (x : nat * nat) : Prop :=
    match w, ext_integral with
    | WCut, true => (mesh_facet p Exterior x /\ on_facet g m (is_cut_facet D) x)
                    \/ (mesh_facet p AllFacets x /\ on_facet g m (has_unfitted_boundary D) x /\ ~ on_facet g m (is_full_unfitted_facet D) x)
    | WFull, true => (mesh_facet p Exterior x /\ on_facet g m (is_full_facet D) x) \/ (mesh_facet p AllFacets x /\ on_facet g m (is_full_unfitted_facet D) x)
    | WEmpty, true => mesh_facet p Exterior x /\ on_facet g m (is_empty_facet D) x
    | WCut, false => mesh_facet p Interior x /\ on_facet g m (is_cut_facet D) x
    | WFull, false => mesh_facet p Interior x /\ on_facet g m (is_full_facet D) x
    | WEmpty, false => mesh_facet p Interior x /\ (on_facet g m (is_empty_facet D) x \/ (on_facet g m (has_unfitted_boundary D) x /\ ~ on_facet g m (is_cut_facet D) x))
    end.
End Lists.
(** The getters called one after the other on the same object. *)
Fixpoint run_getters (argsort : list Z -> list nat) (p : process) (m : mesh) (D : domain) (ops : list (which * bool)) (s : caches) : outcome (list (list facet)) :=
  match ops with
  | [] => Ret []
  | op :: ops' => bind (get_which argsort p m D (fst op) (snd op) s) (fun r => bind (run_getters argsort p m D ops' (snd r)) (fun rs => Ret (fst r :: rs)))
  end.
