(** python/qugar/mesh/unfitted_domain.py, unfitted_domain_abc.py: cells and facets of an unfitted domain on a (DOLFINx) mesh. *)
From Verif Require Import M_Domain.
From Verif Require Import M_PyBase M_PyNodes M_PyFacets M_PyMesh.
Local Open Scope Z_scope.

(** mesh.py 573-581: get_all_original_cell_ids; [n_local] is num_local_cells (the cells owned by the process). *)
Definition get_all_original_cell_ids (m : mesh) (n_local : nat) : outcome (list Z) := get_original_cell_ids m (map Z.of_nat (seq 0 n_local)).
(** unfitted_domain.py 101-124: _get_cells; the getter of the C++ object with or without target cells (M_Domain.get_cells, get_cells_target);
    num_total_cells is the number of cells of the grid; np.sort is a parameter. *)
Definition py_get_cells (sort : list Z -> list Z) (argsort : list Z -> list nat) (m : mesh) (n_local : nat) (D : domain) (st : cstatus) : outcome (list Z) :=
  orig <- (if Z.of_nat n_local =? num_cells (d_grid D) then get_cells D st
           else (t <- get_all_original_cell_ids m n_local ;; get_cells_target D st t)) ;;
  ids <- get_DOLFINx_local_cell_ids argsort m orig ;;
  Ret (sort ids).

(** mesh_facets.py 294-316: to_original; 318-342: to_DOLFINx. Facets are pairs (cell, local facet); numpy's negative indices do not occur. *)
Definition to_original (m : mesh) (dim : nat) (l : list facet) : outcome (list (Z * Z)) :=
  cells <- get_original_cell_ids m (map (fun x => Z.of_nat (fst x)) l) ;;
  tbl <- lexicg_to_DOLFINx_faces dim ;;
  facets <- take_ids tbl (map snd l) ;;
  Ret (combine cells (map Z.of_nat facets)).
Definition to_DOLFINx (argsort : list Z -> list nat) (m : mesh) (dim : nat) (l : list (Z * Z)) : outcome (list (Z * Z)) :=
  cells <- get_DOLFINx_local_cell_ids argsort m (map fst l) ;;
  tbl <- DOLFINx_to_lexicg_faces dim ;;
  facets <- take_zids tbl (map snd l) ;;
  Ret (combine cells (map Z.of_nat facets)).

Inductive ftype := Exterior | Interior | AllFacets.
Section Unf.
  Context (argsort : list Z -> list nat) (p : process) (m : mesh) (D : domain).
  Definition dim_of : nat := length (breaks (d_grid D)).
  (** unfitted_domain.py 170-215: _get_facets. The result is read as a list of facets of M_PyFacets (a cell -1 would become 0: it does not
      occur, P_PyUnf). *)
  Definition get_facets (query : Z -> Z -> outcome bool) (ty : ftype) : outcome (list facet) :=
    facets <- match ty with
              | Interior => create_interior_mesh_facets p false
              | Exterior => create_exterior_mesh_facets p
              | AllFacets => create_all_mesh_facets p false
              end ;;
    orig <- to_original m dim_of facets ;;
    filtered <- get_facets_target query (map fst orig) (map snd orig) ;;
    r <- to_DOLFINx argsort m dim_of filtered ;;
    Ret (map (fun x => (Z.to_nat (fst x), Z.to_nat (snd x))) r).

  (** The cached lists of facets of the object. *)
  Record caches := { c_ext_cut : option (list facet); c_ext_full : option (list facet); c_ext_empty : option (list facet);
                     c_int_cut : option (list facet); c_int_full : option (list facet); c_int_empty : option (list facet) }.
  (** unfitted_domain.py 66-83: the constructor. *)
  Definition no_caches : caches := {| c_ext_cut := None; c_ext_full := None; c_ext_empty := None; c_int_cut := None; c_int_full := None; c_int_empty := None |}.
  Definition set_ext_cut (s : caches) v := {| c_ext_cut := Some v; c_ext_full := c_ext_full s; c_ext_empty := c_ext_empty s; c_int_cut := c_int_cut s; c_int_full := c_int_full s; c_int_empty := c_int_empty s |}.
  Definition set_ext_full (s : caches) v := {| c_ext_cut := c_ext_cut s; c_ext_full := Some v; c_ext_empty := c_ext_empty s; c_int_cut := c_int_cut s; c_int_full := c_int_full s; c_int_empty := c_int_empty s |}.
  Definition set_ext_empty (s : caches) v := {| c_ext_cut := c_ext_cut s; c_ext_full := c_ext_full s; c_ext_empty := Some v; c_int_cut := c_int_cut s; c_int_full := c_int_full s; c_int_empty := c_int_empty s |}.
  Definition set_int_cut (s : caches) v := {| c_ext_cut := c_ext_cut s; c_ext_full := c_ext_full s; c_ext_empty := c_ext_empty s; c_int_cut := Some v; c_int_full := c_int_full s; c_int_empty := c_int_empty s |}.
  Definition set_int_full (s : caches) v := {| c_ext_cut := c_ext_cut s; c_ext_full := c_ext_full s; c_ext_empty := c_ext_empty s; c_int_cut := c_int_cut s; c_int_full := Some v; c_int_empty := c_int_empty s |}.
  Definition set_int_empty (s : caches) v := {| c_ext_cut := c_ext_cut s; c_ext_full := c_ext_full s; c_ext_empty := c_ext_empty s; c_int_cut := c_int_cut s; c_int_full := c_int_full s; c_int_empty := Some v |}.
  Definition is_nil (l : list facet) : bool := match l with [] => true | _ => false end.

  (** unfitted_domain.py 217-255: _get_cut_facets_ext_integral. *)
  Definition cut_ext (s : caches) : outcome (list facet * caches) :=
    match c_ext_cut s with
    | Some l => Ret (l, s)
    | None =>
        cut <- get_facets (is_cut_facet D) Exterior ;;
        unf <- get_facets (has_unfitted_boundary D) AllFacets ;;
        l <- (if is_nil unf then Ret cut else
              full <- get_facets (is_full_unfitted_facet D) AllFacets ;;
              let partial := mf_difference unf full false in
              Ret (if is_nil partial then cut else mf_unique (mf_concatenate cut partial))) ;;
        Ret (l, set_ext_cut s l)
    end.
  (** 257-272: _get_cut_facets_int_integral. *)
  Definition cut_int (s : caches) : outcome (list facet * caches) :=
    match c_int_cut s with
    | Some l => Ret (l, s)
    | None => l <- get_facets (is_cut_facet D) Interior ;; Ret (l, set_int_cut s l)
    end.
  (** 313-342: _get_full_facets_ext_integral. *)
  Definition full_ext (s : caches) : outcome (list facet * caches) :=
    match c_ext_full s with
    | Some l => Ret (l, s)
    | None =>
        full <- get_facets (is_full_facet D) Exterior ;;
        unf <- get_facets (is_full_unfitted_facet D) AllFacets ;;
        let l := if is_nil unf then full else mf_unique (mf_concatenate full unf) in
        Ret (l, set_ext_full s l)
    end.
  (** 344-364: _get_full_facets_int_integral. *)
  Definition full_int (s : caches) : outcome (list facet * caches) :=
    match c_int_full s with
    | Some l => Ret (l, s)
    | None => l <- get_facets (is_full_facet D) Interior ;; Ret (l, set_int_full s l)
    end.
  (** 402-422: _get_empty_facets_ext_integral. *)
  Definition empty_ext (s : caches) : outcome (list facet * caches) :=
    match c_ext_empty s with
    | Some l => Ret (l, s)
    | None => l <- get_facets (is_empty_facet D) Exterior ;; Ret (l, set_ext_empty s l)
    end.
  (** 424-464: _get_empty_facets_int_integral: lines 458-461 assign _interior_cut_facets. *)
  Definition empty_int (s : caches) : outcome (list facet * caches) :=
    match c_int_empty s with
    | Some l => Ret (l, s)
    | None =>
        l <- get_facets (is_empty_facet D) Interior ;;
        let s1 := set_int_empty s l in
        unf <- get_facets (has_unfitted_boundary D) Interior ;;
        s2 <- (if is_nil unf then Ret s1 else
               cs <- cut_int s1 ;;
               let non_cut := mf_difference unf (fst cs) true in
               Ret (if is_nil non_cut then snd cs else set_int_cut (snd cs) (mf_unique (mf_concatenate l non_cut)))) ;;
        Ret (l, s2)
    end.
  (** 274-311, 366-400, 466-500: get_cut_facets, get_full_facets, get_empty_facets. *)
  Inductive which := WCut | WFull | WEmpty.
  Definition get_which (w : which) (ext_integral : bool) (s : caches) : outcome (list facet * caches) :=
    match w, ext_integral with
    | WCut, true => cut_ext s | WCut, false => cut_int s
    | WFull, true => full_ext s | WFull, false => full_int s
    | WEmpty, true => empty_ext s | WEmpty, false => empty_int s
    end.
  (** unfitted_domain_abc.py 226-262: get_all_facets. *)
  Definition get_all_facets (ext_integral : bool) (s : caches) : outcome (list facet * caches) :=
    c <- get_which WCut true s ;; f <- get_which WFull true (snd c) ;; e <- get_which WEmpty true (snd f) ;;
    let ext := mf_concatenate (mf_concatenate (fst c) (fst f)) (fst e) in
    if ext_integral then Ret (ext, snd e) else
    (all <- create_all_mesh_facets p false ;; Ret (mf_difference all ext false, snd e)).

  (** unfitted_domain_abc.py 435-500: create_facet_tags. The dictionary from tags to facets is a list in order of insertion; an absent tag (None)
      is an option. Line 498 adds the empty facets with cut_tag, which may be None. *)
  Definition tag_eqb (a b : option Z) : bool := match a, b with Some x, Some y => x =? y | None, None => true | _, _ => false end.
  Fixpoint add_facets (d : list (option Z * list facet)) (facets : list facet) (tag : option Z) : list (option Z * list facet) :=
    match d with
    | [] => [(tag, facets)]
    | (t, l) :: d' => if tag_eqb t tag then (t, if is_nil facets then l else mf_concatenate l facets) :: d' else (t, l) :: add_facets d' facets tag
    end.
  Definition create_facet_tags (cut_tag full_tag empty_tag : option Z) (ext_integral : bool) (s : caches) : outcome (list (option Z * list nat) * caches) :=
    r1 <- match cut_tag with Some _ => r <- get_which WCut ext_integral s ;; Ret (add_facets [] (fst r) cut_tag, snd r) | None => Ret ([], s) end ;;
    r2 <- match full_tag with Some _ => r <- get_which WFull ext_integral (snd r1) ;; Ret (add_facets (fst r1) (fst r) full_tag, snd r) | None => Ret r1 end ;;
    r3 <- match empty_tag with Some _ => r <- get_which WEmpty ext_integral (snd r2) ;; Ret (add_facets (fst r2) (fst r) cut_tag, snd r) | None => Ret r2 end ;;
    Ret (map (fun tl => (fst tl, as_array (snd tl))) (fst r3), snd r3).
End Unf.

(** unfitted_domain_abc.py 383-433: create_cell_meshtags: the cells and values handed over to meshtags; the dictionary of getters is iterated
    in order of insertion. *)
Definition create_cell_meshtags (argsort : list Z -> list nat) (cut full empty : list Z) (cut_tag full_tag empty_tag : option Z) : outcome (list Z * list Z) :=
  let add := fun (acc : list Z * list Z) (g : list Z * option Z) =>
    match snd g with Some tag => (fst acc ++ fst g, snd acc ++ map (fun _ => tag) (fst g)) | None => acc end in
  let cv := fold_left add [(cut, cut_tag); (full, full_tag); (empty, empty_tag)] ([], []) in
  let order := argsort (fst cv) in
  cells <- take_ids (fst cv) order ;;
  values <- take_ids (snd cv) order ;;
  Ret (cells, values).

(** unfitted_domain.py 502-529: get_num_Gauss_points: max(ceil((degree + 1) / 2), 1). *)
Definition get_num_Gauss_points (degree : Z) : outcome Z :=
  assert_ (0 <=? degree) (Ret (Z.max (- ((- (degree + 1)) / 2)) 1)).
