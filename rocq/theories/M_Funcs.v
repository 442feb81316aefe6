(** Model of the plain functions of cpp/qugar/primitive_funcs_lib.cpp and of cpp/qugar/impl_funcs_lib.cpp.  A function object
    is its value, gradient and Hessian; constructors may abort (assertions).  Only the [real] instantiation is modelled
    (the interval instantiation is algoim's). *)
From Verif Require Export M_Tpms.
Open Scope R_scope.

Definition sqrnorm (v : list R) : R := dot v v.
Definition num_hess (dim : nat) : nat := (dim * (dim + 1) / 2)%nat.

(** primitive_funcs_lib.cpp 38-43, 66-84: Sphere<dim>. *)
Definition sphere (dim : nat) (radius : R) (center : list R) : outcome func :=
  assert_ (Rltb 0 radius) (Ret (mk_func
    (fun p => sqrnorm (vsub p center) - radius * radius)
    (fun p => vscale 2 (vsub p center))
    (fun _ => match dim with 2%nat => [2; 0; 2] | _ => [2; 0; 0; 2; 0; 2] end))).

(** primitive_funcs_lib.cpp 116-126 (CylinderBase) and 510-518 (TorusBase): the axis is normalized unless it is zero up to tolerance. *)
Definition normalize_axis (axis : list R) : list R :=
  if is_zero default_tol (vec_norm axis) then axis else vscale (/ vec_norm axis) axis.
(** primitive_funcs_lib.cpp 116-126, 211-238: Cylinder.  The Hessian returns at line 229, the code after it is dead. *)
Definition cylinder (radius : R) (origin axis0 : list R) : outcome func :=
  assert_ (Rltb 0 radius)
   (let axis := normalize_axis axis0 in Ret (mk_func
    (fun p => let diff := vsub p origin in let proj := dot diff axis in dot diff diff - proj * proj - radius * radius)
    (fun p => let diff := vsub p origin in let proj := dot diff axis in vsub (vscale 2 diff) (vscale (2 * proj) axis))
    (fun _ => [2; 0; 0; 2; 0; 2]))).

(** primitive_funcs_lib.cpp 240-249, 327-375: Ellipsoid<dim>. *)
Definition ellipsoid (dim : nat) (semi_axes : list R) (sys : ref_system) : outcome func :=
  let basis i := nth i (r_basis sys) [] in
  assert_ (forallb (fun d => Rltb 0 (vx semi_axes d)) (seq 0 dim)) (Ret (mk_func
    (fun p => let diff := vsub p (r_origin sys) in
       fold_left (fun val d => let proj := dot (basis d) diff / vx semi_axes d in val + proj * proj) (seq 0 dim) (- (1)))
    (fun p => let diff := vsub p (r_origin sys) in
       fold_left (fun grad d => let coef := 2 / vx semi_axes d / vx semi_axes d in
         vadd grad (vscale (coef * dot (basis d) diff) (basis d))) (seq 0 dim) (repeat 0 dim))
    (fun _ =>
       fold_left (fun hess d => let axis := basis d in let coef := 2 / vx semi_axes d / vx semi_axes d in
         vadd hess match dim with
           | 2%nat => [coef * vx axis 0 * vx axis 0; coef * vx axis 0 * vx axis 1; coef * vx axis 1 * vx axis 1]
           | _ => [coef * vx axis 0 * vx axis 0; coef * vx axis 0 * vx axis 1; coef * vx axis 0 * vx axis 2;
                   coef * vx axis 1 * vx axis 1; coef * vx axis 1 * vx axis 2; coef * vx axis 2 * vx axis 2]
           end) (seq 0 dim) (repeat 0 (num_hess dim))))).

(** primitive_funcs_lib.cpp 378-382, 484-507: Annulus. *)
Definition annulus (inner_radius outer_radius : R) (center : list R) : outcome func :=
  assert_ (Rltb 0 inner_radius && Rltb inner_radius outer_radius)
   (let Ri2 := inner_radius * inner_radius in let Ro2 := outer_radius * outer_radius in Ret (mk_func
    (fun p => let dist2 := sqrnorm (vsub p center) in (dist2 - Ri2 - Ro2) * dist2 + Ri2 * Ro2)
    (fun p => let diff := vsub p center in vscale (4 * sqrnorm diff - Ri2 - Ro2) diff)
    (fun p => let diff := vsub p center in let aux := 4 * sqrnorm diff in
       [aux + 8 * vx diff 0 * vx diff 0; 8 * vx diff 0 * vx diff 1; aux + 8 * vx diff 1 * vx diff 1]))).

(** primitive_funcs_lib.cpp 510-518, 705-751: Torus. *)
Definition torus (major_radius minor_radius : R) (center axis0 : list R) : outcome func :=
  assert_ (Rltb 0 minor_radius && Rltb minor_radius major_radius)
   (let axis := normalize_axis axis0 in
    let R_2 := major_radius * major_radius in let r_2 := minor_radius * minor_radius in Ret (mk_func
    (fun p => let diff := vsub p center in let dist2 := sqrnorm diff in let proj_diff := dot diff axis in
       dist2 * dist2 - 2 * (R_2 + r_2) * dist2 + 4 * R_2 * proj_diff * proj_diff + (R_2 - r_2) * (R_2 - r_2))
    (fun p => let diff := vsub p center in let dist2 := sqrnorm diff in let proj_diff := dot diff axis in
       vadd (vscale (4 * (dist2 - R_2 - r_2)) diff) (vscale (8 * R_2 * proj_diff) axis))
    (fun p => let diff := vsub p center in let dist2 := sqrnorm diff in
       let aux_0 := 4 * (dist2 - R_2 - r_2) in let aux_1 := 8 * R_2 in
       flat_map (fun i => map (fun j => let Idt := if Nat.eqb i j then 1 else 0 in
         aux_0 * Idt + 8 * vx diff i * vx diff j + aux_1 * vx axis i * vx axis j) (seq i (3 - i))) (seq 0 3)))).

(** primitive_funcs_lib.cpp 753, 772-785: Constant<dim>. *)
Definition constant (dim : nat) (value : R) : func :=
  mk_func (fun _ => value) (fun _ => repeat 0 dim) (fun _ => repeat 0 (num_hess dim)).

(** primitive_funcs_lib.cpp 788-791, 850-863: Plane<dim>. *)
Definition plane (dim : nat) (origin normal : list R) : func :=
  mk_func (fun p => dot (vsub p origin) normal) (fun _ => normal) (fun _ => repeat 0 (num_hess dim)).

(** ** impl_funcs_lib.cpp *)
(** impl_funcs_lib.cpp 36-41 and include/qugar/impl_funcs_lib_macros.hpp 172-199: functions evaluated through the inverse of a
    transformation. *)
Definition with_transf (dim : nat) (transf : list R) (base : func) : outcome func :=
  inv <- inverse dim transf ;;
  Ret (mk_func (fun p => fval base (transform_point dim inv p))
               (fun p => transform_vector dim inv (fgrad base (transform_point dim inv p)))
               (fun p => transform_tensor dim inv (fhess base (transform_point dim inv p)))).
(** impl_funcs_lib.cpp 179-205: TransformedFunction. *)
Definition transformed (dim : nat) (base : func) (transf : list R) : outcome func := with_transf dim transf base.

(** algoim's max and argmax (first maximum) on reals. *)
Definition rmax_list (l : list R) : R := match l with [] => 0 | x :: l' => fold_left (fun m y => if Rltb m y then y else m) l' x end.
Fixpoint rargmax_from (best : R) (besti i : nat) (l : list R) : nat :=
  match l with
  | [] => besti
  | x :: l' => if Rltb best x then rargmax_from x i (S i) l' else rargmax_from best besti (S i) l'
  end.
Definition rargmax (l : list R) : nat := match l with [] => O | x :: l' => rargmax_from x O 1 l' end.
(** impl_funcs_lib.cpp 91-98: sgn. *)
Definition sgn (v : R) : R := (if Rltb 0 v then 1 else 0) - (if Rltb v 0 then 1 else 0).
(** impl_funcs_lib.cpp 48-89: Square<dim> before the transformation.  The Hessian asserts false: it is modelled as empty and
    no theorem uses it. *)
Definition square (dim : nat) : func :=
  mk_func (fun p => rmax_list (map (fun x => Rabs x - 1) p))
    (fun p => let ind := rargmax (map (fun x => Rabs x - 1) p) in map (fun d => if Nat.eqb d ind then sgn (vx p ind) else 0) (seq 0 dim))
    (fun _ => []).
(** impl_funcs_lib.cpp 111-177: DimLinear<dim> before the transformation. *)
Definition dim_linear (dim : nat) (cfs : list R) : func :=
  let c := vx cfs in
  mk_func
  (fun p => let x := vx p 0 in let y := vx p 1 in let z := vx p 2 in
    match dim with
    | 2%nat => (c 0%nat * (1 - x) + c 1%nat * x) * (1 - y) + (c 2%nat * (1 - x) + c 3%nat * x) * y
    | _ => ((c 0%nat * (1 - x) + c 1%nat * x) * (1 - y) + (c 2%nat * (1 - x) + c 3%nat * x) * y) * (1 - z)
           + ((c 4%nat * (1 - x) + c 5%nat * x) * (1 - y) + (c 6%nat * (1 - x) + c 7%nat * x) * y) * z
    end)
  (fun p => let x := vx p 0 in let y := vx p 1 in let z := vx p 2 in
    match dim with
    | 2%nat => [(c 1%nat - c 0%nat) * (1 - y) + (c 3%nat - c 2%nat) * y; (c 2%nat - c 0%nat) * (1 - x) + (c 3%nat - c 1%nat) * x]
    | _ => [((c 1%nat - c 0%nat) * (1 - y) + (c 3%nat - c 2%nat) * y) * (1 - z) + ((c 5%nat - c 4%nat) * (1 - y) + (c 7%nat - c 6%nat) * y) * z;
            ((c 2%nat - c 0%nat) * (1 - x) + (c 3%nat - c 1%nat) * x) * (1 - z) + ((c 6%nat - c 4%nat) * (1 - x) + (c 7%nat - c 5%nat) * x) * z;
            ((c 4%nat - c 0%nat) * (1 - x) + (c 5%nat - c 1%nat) * x) * (1 - y) + ((c 6%nat - c 2%nat) * (1 - x) + (c 7%nat - c 3%nat) * x) * y]
    end)
  (fun p => let x := vx p 0 in let y := vx p 1 in let z := vx p 2 in
    match dim with
    | 2%nat => [0; c 0%nat + c 3%nat - c 1%nat - c 2%nat; 0]
    | _ => [0;
            (c 0%nat + c 3%nat - c 1%nat - c 2%nat) * (1 - z) + (c 4%nat + c 7%nat - c 5%nat - c 6%nat) * z;
            (c 0%nat + c 5%nat - c 1%nat - c 4%nat) * (1 - y) + (c 2%nat + c 7%nat - c 3%nat - c 6%nat) * y;
            0;
            (c 0%nat + c 7%nat - c 2%nat - c 5%nat) * (1 - x) + (c 1%nat + c 6%nat - c 3%nat - c 4%nat) * x;
            0]
    end).
(** impl_funcs_lib.cpp 207-227: Negative. *)
Definition negative (f : func) : func :=
  mk_func (fun p => - fval f p) (fun p => map Ropp (fgrad f p)) (fun p => map Ropp (fhess f p)).
(** impl_funcs_lib.cpp 229-253: AddFunctions. *)
Definition add_functions (f g : func) : func :=
  mk_func (fun p => fval f p + fval g p) (fun p => vadd (fgrad f p) (fgrad g p)) (fun p => vadd (fhess f p) (fhess g p)).
(** impl_funcs_lib.cpp 255-281: SubtractFunctions. *)
Definition subtract_functions (f g : func) : func :=
  mk_func (fun p => fval f p - fval g p) (fun p => vsub (fgrad f p) (fgrad g p)) (fun p => vsub (fhess f p) (fhess g p)).
