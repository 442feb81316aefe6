(** Model of the part of cpp/qugar/impl_unfitted_domain.cpp that depends on the level set function: the sign of the function in a box (135-159),
    the classification of a cell (183-233) and of a facet (336-409), and the construction of the domain of a function (415-439).
    Doubles are real numbers. *)
From Verif Require Export M_Quad M_Poly.
Close Scope Z_scope.
Close Scope nat_scope.
Open Scope R_scope.

(** ImplicitFunc: a Bezier polynomial (is_bezier, 227, 403) or another function with its gradient. *)
Inductive func := General (phi : list R -> R) (grad : list R -> list R) | Bezier (p : poly).
Definition fvalue (F : func) : list R -> R := match F with General phi _ => phi | Bezier p => bezier_eval p end.
(** What is called and not modelled: the evaluation of the function in interval arithmetic (centre and half lengths of the intervals; alpha and uniformSign() of the
    result); algoim::quadGen with one point per direction (box, direction -1 or of the facet, side); the points (in the order of the directions of the library) and weights at
    which algoim::ImplicitPolyQuadrature::integrate calls its functor with one point per direction, for a polynomial in the unit box; BezierTP::rescale_domain (bezier_tp.cpp 403-415, algoim's deCasteljau). *)
Record samplers := mk_samplers {
  sm_interval : list R -> list R -> R * bool;
  sm_general : bbox -> Z -> Z -> rule;
  sm_poly : poly -> rule;
  sm_rescale : poly -> bbox -> poly }.

(** impl_unfitted_domain.cpp 135-159: create_compute_sign_function. *)
Definition compute_sign (O : samplers) (dom : bbox) : fsign :=
  let res := sm_interval O (box_mid dom) (map (fun l => / 2 * l) (box_lengths dom)) in
  if snd res then (if Rltb (fst res) 0 then Sneg else Spos) else Sund.
(** impl_unfitted_domain.cpp 183-190: classify_cell_general. *)
Definition classify_cell_general (O : samplers) (dom : bbox) : tmpstatus := classify_cell_from_quad (sm_general O dom (-1) 0) dom.
(** The points at which the polynomial is negative (impl_unfitted_domain.cpp 212-219, 368-375). *)
Definition negative_nodes (O : samplers) (p : poly) : rule := filter (fun nw => Rltb (bezier_eval p (fst nw)) 0) (sm_poly O p).
(** impl_unfitted_domain.cpp 225-233: classify_cell (for Bezier: M_Classify.classify_cell_Bezier with the sign of the polynomial as given). *)
Definition classify_cell (O : samplers) (F : func) (dom : bbox) : tmpstatus :=
  match F with
  | General _ _ => classify_cell_general O dom
  | Bezier p => classify_cell_Bezier (bezier_sign p) (negative_nodes O (sm_rescale O p dom)) (unit_box (length (bmin dom)))
  end.
(** impl_unfitted_domain.cpp 336-350: classify_facet_general. *)
Definition classify_facet_general (O : samplers) phi grad (dom : bbox) (facet : Z) (cell : tmpstatus) : outcome fstatus :=
  dir <- facet_const_dir (Z.of_nat (length (bmin dom))) facet ;;
  side <- facet_side (Z.of_nat (length (bmin dom))) facet ;;
  classify_facet_from_quad phi grad dom facet cell (sm_general O dom dir side).
(** impl_unfitted_domain.cpp 352-382: classify_facet_Bezier. *)
Definition classify_facet_Bezier (O : samplers) (p : poly) (dom : bbox) (facet : Z) (cell : tmpstatus) : outcome fstatus :=
  let bzr := sm_rescale O p dom in
  fp <- extract_facet bzr facet ;;
  dir <- facet_const_dir (Z.of_nat (length (bmin dom))) facet ;;
  side <- facet_side (Z.of_nat (length (bmin dom))) facet ;;
  let q := map (fun nw => (add_component (fst nw) (Z.to_nat dir) (IZR side), snd nw)) (negative_nodes O fp) in
  classify_facet_from_quad (bezier_eval bzr) (bezier_grad bzr) (unit_box (length (bmin dom))) facet cell q.
(** impl_unfitted_domain.cpp 384-409: classify_facet. *)
Definition classify_facet (O : samplers) (F : func) (dom : bbox) (facet : Z) (cell : tmpstatus) : outcome fstatus :=
  assert_ ((0 <=? facet) && (facet <? Z.of_nat (length (bmin dom)) * 2))%Z (
  match cell with
  | Tempty => Ret Fempty
  | Tfull => Ret Ffull
  | _ => match F with
         | Bezier p => classify_facet_Bezier O p dom facet cell
         | General phi grad => classify_facet_general O phi grad dom facet cell
         end
  end).
(** The status of a facet of a subgrid, as needed by M_Domain.build.  The case of an abnormal result does not occur (facet_returns in P_Phi). *)
Definition facet_of (O : samplers) (F : func) (g : grid) (r : range) (f : nat) (cell : tmpstatus) : fstatus :=
  match (dom <- sub_domain g r ;; classify_facet O F dom (Z.of_nat f) cell) with Ret s => s | _ => Fempty end.
(** impl_unfitted_domain.cpp 415-439: the constructors of UnfittedImplDomain. *)
Definition create_domain (O : samplers) (F : func) (g : grid) (targets : option (list Z)) (order : fmap -> fmap) : outcome (domain * cstate) :=
  build_domain g (fun _ => compute_sign O) (classify_cell O F) (facet_of O F g) targets order.
