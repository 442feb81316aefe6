(** Specification vocabulary for unfitted domains. *)
From Verif Require Export M_Domain S_TensorIndex S_Grid.
From Coq Require Export Permutation Sorting.Sorted.
Open Scope Z_scope.

(** How the status of a cell was decided: by a conclusive sign test on a box containing the enlarged cell, or
    individually, because the sign test on the enlarged cell itself was inconclusive. *)
Inductive how := by_sign | by_cell.

(** What the individual classification of a cell yields: status and (if kept) the facet statuses. *)
Definition kept (c : tmpstatus) (facets : list fstatus) : bool :=
  match c with Tcut => true | Tfull_unf => negb (forallb is_Ffull facets) | _ => false end.
Definition individually (c : tmpstatus) (facets : list fstatus) (st : cstatus) (entry : option (list fstatus)) : Prop :=
  st = (match c with Tcut => Ccut | Tempty => Cempty | Tfull | Tfull_unf => Cfull end) /\
  entry = (if kept c facets then Some facets else None).

(** The box [lo,hi] widened by [e] is contained in the box [b]. *)
Definition contains_enlarged (e : R) (lo hi : list R) (b : bbox) : Prop :=
  forall p, in_enlarged e lo hi p -> in_closed (bmin b) (bmax b) p.

Inductive cell_result (g : grid) (sign : nat -> bbox -> fsign) (ccell : bbox -> tmpstatus)
    (cfacet : range -> nat -> tmpstatus -> fstatus) (id : Z) : how -> cstatus -> option (list fstatus) -> Prop :=
| cr_neg : forall k b lo hi, get_cell_domain g id = Ret (mk_box lo hi) -> contains_enlarged (eps * 1000) lo hi b ->
    sign k b = Sneg -> cell_result g sign ccell cfacet id by_sign Cfull None
| cr_pos : forall k b lo hi, get_cell_domain g id = Ret (mk_box lo hi) -> contains_enlarged (eps * 1000) lo hi b ->
    sign k b = Spos -> cell_result g sign ccell cfacet id by_sign Cempty None
| cr_cell : forall k lo hi tid st entry, get_cell_domain g id = Ret (mk_box lo hi) ->
    sign k (mk_box (map (fun x => x - eps * 1000)%R lo) (map (fun x => x + eps * 1000)%R hi)) = Sund ->
    to_tensor id (num_cells_dir g) = Ret tid ->
    let c := ccell (mk_box lo hi) in
    individually c (map (fun f => cfacet (mk_range tid (map (Z.add 1) tid)) f c) (seq 0 (2 * length (breaks g)))) st entry ->
    cell_result g sign ccell cfacet id by_cell st entry.

(** Grids on which an unfitted domain can be built without integer overflow: cells numbered by [int], and at most
    2^30 cells per direction (split() adds the two bounds of a range in [int]). *)
Definition usable_grid (g : grid) : Prop :=
  (exists brks, brks <> [] /\ make_grid brks = Ret g) /\ num_cells g <= INT_MAX /\ Forall (fun s => s <= 2 ^ 30) (num_cells_dir g).
(** The iteration order of an unordered_map may be any permutation of its entries. *)
Definition map_order (order : fmap -> fmap) : Prop := forall m, Permutation (order m) m.
(** [D] is the domain obtained by the constructor without target cells, for the given oracles. *)
Definition built (g : grid) sign ccell cfacet (D : domain) (s : cstate) : Prop :=
  usable_grid g /\ exists order, map_order order /\ build_domain g sign ccell cfacet None order = Ret (D, s).
Definition cell_id (g : grid) (id : Z) : Prop := 0 <= id < num_cells g.
Definition facet_id (g : grid) (f : Z) : Prop := 0 <= f < 2 * Z.of_nat (length (breaks g)).

(** A list of (cell,facet) pairs and a per-facet query say the same: the list is computed without abort, has no
    repetition, contains only existing facets, and the query (which never aborts on existing facets) answers
    membership. *)
Definition list_agrees (g : grid) (lst : outcome (list (Z * Z))) (query : Z -> Z -> outcome bool) : Prop :=
  exists l, lst = Ret l /\ NoDup l /\
    (forall id f, In (id, f) l -> cell_id g id /\ facet_id g f) /\
    forall id f, cell_id g id -> facet_id g f -> exists b, query id f = Ret b /\ (b = true <-> In (id, f) l).
