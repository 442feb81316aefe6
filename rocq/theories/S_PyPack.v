(** Specification of the coefficients of custom integrals: what the kernel must do and see on every entity. *)
From Coq Require Import List ZArith Reals Sorting.Sorted Permutation.
From Verif Require Import M_PyBase M_PyFacets M_PyQuadUtils M_PyPack S_PyQuadUtils.
Import ListNotations.
Local Open Scope nat_scope.

(** A stable sorting permutation (np.argsort with kind="mergesort"). *)
Definition stable_argsort (argsort : list nat -> list nat) : Prop :=
  forall l, Permutation (argsort l) (seq 0 (length l))
            /\ StronglySorted (fun i j => nth i l 0 < nth j l 0 \/ nth i l 0 = nth j l 0 /\ i < j) (argsort l).
(** The quadrature rule of one entity. *)
Record rule := { r_pts : list vec; r_w : list R; r_nrm : list vec }.
Definition rule_ok (dim ndim : nat) (unf : bool) (r : rule) : Prop :=
  length (r_pts r) = length (r_w r) /\ Forall (fun x => length x = dim) (r_pts r)
  /\ (unf = true -> length (r_nrm r) = length (r_w r) /\ Forall (fun x => length x = ndim) (r_nrm r)).
(** The quadrature of a list of entities stores their rules one after the other. *)
Definition gathers (unf : bool) (q : cquad) (rs : list rule) : Prop :=
  q_npts q = map (fun r => length (r_w r)) rs /\ q_points q = concat (map r_pts rs) /\ q_weights q = concat (map r_w rs)
  /\ (unf = true -> q_normals q = concat (map r_nrm rs)).

(** The entities of an integral. *)
Inductive entity := ECell (c : nat) | EFacet (f : facet) | EFacet2 (f g : facet).
Definition entity_at (d : idomain) (i : nat) : option entity :=
  match d with
  | Cells l => option_map ECell (nth_error l i)
  | Ext l => option_map EFacet (nth_error l i)
  | Int l => option_map (fun p => EFacet2 (fst p) (snd p)) (nth_error l i)
  end.
Definition unique_domain (d : idomain) : Prop := match d with Cells l => NoDup l | _ => True end.

Section Spec.
  Variables (cut_cells empty_cells : list nat) (cut_facets empty_facets : bool -> list facet).
  Variables (rc : qdata -> nat -> rule) (rf : qdata -> bool -> facet -> rule).
  Variables (ctyp : celltype) (all_perms : list (list nat)) (mixed : bool).
  (** Cut and empty entities; the lists of facets depend on the type of integral (true for exterior). *)
  Definition cut_entity (e : entity) : Prop :=
    match e with ECell c => In c cut_cells | EFacet f => In f (cut_facets true) | EFacet2 f _ => In f (cut_facets false) end.
  Definition empty_entity (e : entity) : Prop :=
    match e with ECell c => In c empty_cells | EFacet f => In f (empty_facets true) | EFacet2 f _ => In f (empty_facets false) end.
  (** The number of the symmetry of a facet of the mesh. *)
  Definition perm_of (f : facet) : nat := nth (snd f) (nth (fst f) all_perms []) 0.
  (** A point of the reference facet in the reference cell of the given side; the symmetry applies to interior and mixed-dimensional integrals. *)
  Definition place (perm : bool) (f : facet) (x : vec) : vec :=
    embed ctyp (snd f) (if perm then match facet_cell ctyp with Some fc => moved fc (perm_of f) x | None => x end else x).
  (** What the custom kernel must see for an integrand on an entity. *)
  Definition expected (qd : qdata) (e : entity) : loaded :=
    match e with
    | ECell c =>
        let r := rc qd c in
        {| l_pts := concat (r_pts r); l_pts1 := []; l_fpts := []; l_w := r_w r; l_nrm := if qd_unf qd then concat (r_nrm r) else [] |}
    | EFacet f =>
        let r := rf qd true f in
        {| l_pts := concat (map (place mixed f) (r_pts r)); l_pts1 := []; l_fpts := if mixed then concat (r_pts r) else []; l_w := r_w r; l_nrm := [] |}
    | EFacet2 f g =>
        let r := rf qd false f in
        {| l_pts := concat (map (place true f) (r_pts r)); l_pts1 := concat (map (place true g) (r_pts r)); l_fpts := if mixed then concat (r_pts r) else [];
           l_w := r_w r; l_nrm := [] |}
    end.
  (** What must run on an entity: the custom kernel with the rules of the entity, the original kernel on full entities, nothing on empty ones. *)
  Definition right_run (qds : list qdata) (e : entity) (k : kernel_run) : Prop :=
    (cut_entity e -> k = RunCustom (map (fun qd => expected qd e) qds))
    /\ (empty_entity e -> k = RunNothing)
    /\ (~ cut_entity e -> ~ empty_entity e -> k = RunOriginal).

  (** The setting: lists without repetitions, no entity both cut and empty, rules of the right shape gathered by the domain;
      unfitted boundaries are integrated over cells, mixed dimensions occur on facets. *)
  Variables (create_cells : qdata -> list nat -> cquad) (create_facets : qdata -> list facet -> bool -> cquad).
  Variables (qds : list qdata) (dom : idomain) (gdim fdim : nat).
  Definition valid_facet (f : facet) : Prop :=
    snd f < n_facets ctyp
    /\ (is_interior dom || mixed = true ->
        fst f < length all_perms /\ snd f < length (nth (fst f) all_perms [])
        /\ exists fc, facet_cell ctyp = Some fc /\ perm_of f < n_perms fc /\ (fc = CQuadrilateral -> perm_of f < 6)).
  Definition facets_of (e : entity) : list facet := match e with ECell _ => [] | EFacet f => [f] | EFacet2 f g => [f; g] end.
  Definition setting : Prop :=
    NoDup cut_cells /\ NoDup empty_cells /\ unique_domain dom
    /\ (forall i e, entity_at dom i = Some e -> cut_entity e -> ~ empty_entity e)
    /\ gdim = tdim ctyp /\ fdim = tdim ctyp - 1
    /\ match dom with
       | Cells l =>
           mixed = false
           /\ (forall qd c, In qd qds -> In c l -> rule_ok gdim gdim (qd_unf qd) (rc qd c))
           /\ (forall qd cs, gathers (qd_unf qd) (create_cells qd cs) (map (rc qd) cs))
       | _ =>
           2 <= tdim ctyp
           /\ (forall qd, In qd qds -> qd_unf qd = false)
           /\ (forall qd f, In qd qds -> In f (single_facets dom) -> rule_ok fdim gdim false (rf qd (negb (is_interior dom)) f))
           /\ (forall qd fs, gathers false (create_facets qd fs (negb (is_interior dom))) (map (rf qd (negb (is_interior dom))) fs))
           /\ (forall i e f, entity_at dom i = Some e -> cut_entity e -> In f (facets_of e) -> valid_facet f)
       end.
End Spec.

(** A history of updates of a packed array (update_coefficients, one list of rows each). *)
Fixpoint updates (ct : ctype) (cs : nat) (hist : list (list (list R))) (mem : list slot) : outcome (list slot) :=
  match hist with
  | [] => Ret mem
  | rows :: hist' => bind (update ct cs rows mem) (updates ct cs hist')
  end.
(** The shape of the coefficients DOLFINx packs for an integral: [n] rows of [cs] coefficients (real slots). *)
Definition shape_ok (ct : ctype) (n cs : nat) (rows : list (list R)) : Prop :=
  length rows = n /\ forall r, In r rows -> length r = cs * ratio ct.
