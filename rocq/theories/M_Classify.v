(** Model of the local facet/edge numbering (cpp/qugar/impl_utils.cpp 33-90) and of the classification of cells
    and facets from sample points (cpp/qugar/impl_unfitted_domain.cpp 163-180, 236-333, 384-392). *)
From Verif Require Export M_Domain.
Open Scope R_scope.

(** ** Facet and edge ids *)
(** impl_utils.cpp 38-43 *)
Definition facet_const_dir (dim f : Z) : outcome Z := assert_ ((0 <=? f) && (f <? dim * 2))%Z (Ret (f / 2)%Z).
(** impl_utils.cpp 45-50 *)
Definition facet_side (dim f : Z) : outcome Z := assert_ ((0 <=? f) && (f <? dim * 2))%Z (Ret (f mod 2)%Z).
(** impl_utils.cpp 52-57 *)
Definition local_facet_id (dim dir side : Z) : outcome Z :=
  assert_ ((0 <=? dir) && (dir <? dim))%Z (assert_ ((0 <=? side) && (side <=? 1))%Z (Ret (dir * 2 + side)%Z)).
(** impl_utils.cpp 59-75, dim = 3 *)
Definition edge_const_dirs3 (e : Z) : outcome (Z * Z) :=
  assert_ ((0 <=? e) && (e <? 12))%Z (Ret (if (e <? 4)%Z then (0, 1)%Z else if (e <? 8)%Z then (0, 2)%Z else (1, 2)%Z)).
(** impl_utils.cpp 77-87, dim = 3 *)
Definition edge_sides3 (e : Z) : outcome (Z * Z) :=
  assert_ ((0 <=? e) && (e <? 12))%Z (Ret (e mod 2, (e / 2) mod 2)%Z).
(** impl_utils.cpp 63-64, 81-82, dim = 2: edges are facets. *)
Definition edge_const_dirs2 (e : Z) : outcome Z := facet_const_dir 2 e.
Definition edge_sides2 (e : Z) : outcome Z := facet_side 2 e.

(** ** Classification *)
(** include/qugar/numbers.hpp: near_eps = 10 eps, the default tolerance (tolerance.cpp 47). *)
Definition default_tol : R := 10 * eps.
(** A quadrature rule of algoim: nodes and weights. *)
Definition rule := list (list R * R).
Definition sum_weights (q : rule) : R := fold_left (fun a nw => a + snd nw) q 0.

(** impl_unfitted_domain.cpp 163-180: classify_cell_from_quad. *)
Definition classify_cell_from_quad (q : rule) (dom : bbox) : tmpstatus :=
  let vol := sum_weights q in
  if tol_equal default_tol vol 0 then Tempty
  else if tol_equal default_tol vol (box_volume dom) then Tfull_unf
  else Tcut.

(** impl_unfitted_domain.cpp 192-223: classify_cell_Bezier.  [sign_bezier] is the sign of the polynomial as given
    (before it is rescaled to the cell: line 197 asks [bezier], not [bzr_domain]), [q] the sampled rule. *)
Definition classify_cell_Bezier (sign_bezier : fsign) (q : rule) (unit_box : bbox) : tmpstatus :=
  match sign_bezier with
  | Spos => Tempty
  | Sneg => Tfull
  | Sund => classify_cell_from_quad q unit_box
  end.

Definition vec_norm (v : list R) : R := sqrt (fold_left (fun a x => a + x * x) v 0).

(** impl_unfitted_domain.cpp 236-270: classify_facet_full_unfitted_boundary; [area] is line 246. *)
Definition facet_area (dom : bbox) (const_dir : nat) : R := fold_left Rmult (remove_component const_dir (box_lengths dom)) 1.
Definition classify_facet_full_unf (st : fstatus) (area vol : R) (n_pts : nat) : fstatus :=
  if equal_rel2 default_tol vol area (default_tol * 1000) then
    match st with
    | Funf => if Nat.eqb n_pts 1 then Ffull_unf else st
    | Fext => if Nat.eqb n_pts 1 then Ffull_ext else st
    | Fcut => Ffull
    | _ => st
    end
  else st.

(** impl_unfitted_domain.cpp 296-315: one iteration of the loop over the nodes; flags (ext, unf, cut). A zero normal
    makes normal_comp a NaN, for which every comparison is false, so the node is skipped. *)
Definition facet_node (phi : list R -> R) (grad : list R -> list R) (const_dir side : nat) (fl : bool * bool * bool) (nw : list R * R) : bool * bool * bool :=
  let '(e, u, c) := fl in
  if is_zero default_tol (phi (fst nw)) then
    let normal := grad (fst nw) in
    if Reqb (vec_norm normal) 0 then fl else
    let comp := nth const_dir normal 0 / vec_norm normal in
    if negb (tol_equal default_tol (Rabs comp) 1) then fl
    else if (if Nat.eqb side 0 then is_negative default_tol comp else is_positive default_tol comp) then (e, true, c)
    else (true, u, c)
  else (e, u, true).

(** impl_unfitted_domain.cpp 321-329: the table. *)
Definition facet_table (fl : bool * bool * bool) : fstatus :=
  match fl with
  | (false, false, false) => Fempty | (true, false, false) => Fext
  | (false, true, false) => Funf | (true, true, false) => Funf_ext
  | (false, false, true) => Fcut | (true, false, true) => Fcut_ext
  | (false, true, true) => Fcut_unf | (true, true, true) => Fcut_unf_ext
  end.

(** impl_unfitted_domain.cpp 272-333: classify_facet_from_quad. *)
Definition classify_facet_from_quad (phi : list R -> R) (grad : list R -> list R) (dom : bbox) (facet : Z) (cell : tmpstatus) (q : rule) : outcome fstatus :=
  assert_ (match cell with Tcut | Tfull_unf => true | _ => false end) (
  let full_unf := match cell with Tfull_unf => true | _ => false end in
  match q with
  | [] => Ret (if full_unf then Ffull_unf else Fempty)
  | _ =>
      dir <- facet_const_dir (Z.of_nat (length (bmin dom))) facet ;;
      side <- facet_side (Z.of_nat (length (bmin dom))) facet ;;
      let fl := fold_left (facet_node phi grad (Z.to_nat dir) (Z.to_nat side)) q (false, false, false) in
      if full_unf && negb (snd fl) then Ret Ffull_unf
      else Ret (classify_facet_full_unf (facet_table fl) (facet_area dom (Z.to_nat dir)) (sum_weights q) (length q))
  end).
(** impl_unfitted_domain.cpp 384-409: classify_facet, with the sampled rule as an argument. *)
Definition classify_facet (phi : list R -> R) (grad : list R -> list R) (dom : bbox) (facet : Z) (cell : tmpstatus) (q : rule) : outcome fstatus :=
  assert_ ((0 <=? facet) && (facet <? Z.of_nat (length (bmin dom)) * 2))%Z (
  match cell with
  | Tempty => Ret Fempty
  | Tfull => Ret Ffull
  | _ => classify_facet_from_quad phi grad dom facet cell q
  end).
