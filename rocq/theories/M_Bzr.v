(** Model of the Bezier versions of the primitives, cpp/qugar/primitive_funcs_lib.cpp: the create_monomials functions and the conversion to
    Bernstein coefficients (bezier_of_mono in M_Poly). *)
From Verif Require Export M_Funcs M_Poly.
Close Scope Z_scope.
Open Scope R_scope.

(** monomials->get_coef(tid) = v and += v *)
Definition set_coef (order t : list nat) (v : R) (c : list R) : list R := set_at c (tp_flat order t) v.
Definition add_coef (order t : list nat) (v : R) (c : list R) : list R := add_at c (tp_flat order t) v.
(** std::make_shared<MonomialsTP<dim, 1>>(TensorSizeTP<dim>(n)): all coefficients zero (polynomial_tp.cpp 34-36). *)
Definition zero_coefs (dim n : nat) : list R := repeat 0 (tp_size (tp_const dim n)).
(** TensorIndexTP<dim> tid{ 0 }; tid(dir) = k *)
Definition unit_index (dim dir k : nat) : list nat := set_at (repeat O dim) dir k.
(** ++tid(dir) *)
Definition incr (t : list nat) (dir : nat) : list nat := set_at t dir (S (nth dir t O)).

(** primitive_funcs_lib.cpp 89-113: SphereBzr<dim>. *)
Definition sphere_monomials (dim : nat) (radius : R) (center : list R) : list R :=
  let o := tp_const dim 3 in
  fold_left (fun c dir =>
      set_coef o (unit_index dim dir 2) 1 (set_coef o (unit_index dim dir 1) (- (2) * vx center dir) (add_coef o (repeat O dim) (vx center dir * vx center dir) c)))
    (seq 0 dim) (set_at (zero_coefs dim 3) 0 (- radius * radius)).
Definition sphere_bzr (dim : nat) (radius : R) (center : list R) : outcome poly :=
  assert_ (Rltb 0 radius) (bezier_of_mono (mk_poly (tp_const dim 3) (sphere_monomials dim radius center))).

(** The loops of 178-194 (cylinder, coef = 1, dim 3, the first two vectors) and 289-311 (ellipsoid): add coef times the square of [vec . (x - center)]. *)
Definition add_square (dim : nat) (vec center : list R) (coef : R) (c : list R) : list R :=
  let o := tp_const dim 3 in
  let proj := dot vec center in
  fold_left (fun c dir2 =>
      let tid := incr (repeat O dim) dir2 in
      fold_left (fun c dir3 => add_coef o (incr tid dir3) (vx vec dir2 * vx vec dir3 * coef) c) (seq 0 dim)
        (add_coef o tid (- (2) * vx vec dir2 * proj * coef) c))
    (seq 0 dim) (add_at c 0 (proj * proj * coef)).
(** primitive_funcs_lib.cpp 158-198: CylinderBzr.  In the code there is no factor coef: here it is 1. *)
Definition cylinder_monomials (radius : R) (origin : list R) (basis : list (list R)) : list R :=
  fold_left (fun c dir => add_square 3 (nth dir basis []) origin 1 c) (seq 0 2) (set_at (zero_coefs 3 3) 0 (- radius * radius)).
Definition cylinder_bzr (radius : R) (origin axis : list R) : outcome poly :=
  assert_ (Rltb 0 radius) (
  system <- ref_axis 3 origin axis ;;
  bezier_of_mono (mk_poly (tp_const 3 3) (cylinder_monomials radius origin (r_basis system)))).
(** primitive_funcs_lib.cpp 240-249, 271-313: EllipsoidBzr<dim>. *)
Definition ellipsoid_monomials (dim : nat) (semi_axes : list R) (sys : ref_system) : list R :=
  fold_left (fun c dir => add_square dim (nth dir (r_basis sys) []) (r_origin sys) (1 / vx semi_axes dir / vx semi_axes dir) c) (seq 0 dim)
    (set_at (zero_coefs dim 3) 0 (- (1))).
Definition ellipsoid_bzr (dim : nat) (semi_axes : list R) (sys : ref_system) : outcome poly :=
  assert_ (forallb (fun d => Rltb 0 (vx semi_axes d)) (seq 0 dim)) (
  bezier_of_mono (mk_poly (tp_const dim 3) (ellipsoid_monomials dim semi_axes sys))).

(** Successive assignments get_coef(tid) = v. *)
Definition assign_all (order : list nat) (l : list (list nat * R)) (c : list R) : list R := fold_left (fun c tv => set_coef order (fst tv) (snd tv) c) l c.
(** primitive_funcs_lib.cpp 410-472: AnnulusBzr. *)
Definition annulus_monomials (inner_radius outer_radius : R) (center : list R) : list R :=
  let Ri_2 := inner_radius * inner_radius in let Ro_2 := outer_radius * outer_radius in
  let o0 := vx center 0 in let o1 := vx center 1 in let o0_2 := o0 * o0 in let o1_2 := o1 * o1 in
  assign_all (tp_const 2 5)
    [([0; 0]%nat, -Ro_2 * o0_2 - Ro_2 * o1_2 + Ro_2 * Ri_2 + o0_2 * o0_2 + 2 * o0_2 * o1_2 - o0_2 * Ri_2 + o1_2 * o1_2 - o1_2 * Ri_2);
     ([1; 0]%nat, 2 * Ro_2 * o0 - 4 * o0_2 * o0 - 4 * o0 * o1_2 + 2 * o0 * Ri_2);
     ([0; 1]%nat, 2 * Ro_2 * o1 - 4 * o0_2 * o1 - 4 * o1_2 * o1 + 2 * o1 * Ri_2);
     ([1; 1]%nat, 8 * o0 * o1);
     ([2; 0]%nat, -Ro_2 + 6 * o0_2 + 2 * o1_2 - Ri_2);
     ([0; 2]%nat, -Ro_2 + 2 * o0_2 + 6 * o1_2 - Ri_2);
     ([1; 2]%nat, -4 * o0);
     ([2; 1]%nat, -4 * o1);
     ([3; 0]%nat, -4 * o0);
     ([0; 3]%nat, -4 * o1);
     ([2; 2]%nat, 2);
     ([4; 0]%nat, 1);
     ([0; 4]%nat, 1)]
    (zero_coefs 2 5).
Definition annulus_bzr (inner_radius outer_radius : R) (center : list R) : outcome poly :=
  assert_ (Rltb 0 inner_radius && Rltb inner_radius outer_radius) (
  bezier_of_mono (mk_poly (tp_const 2 5) (annulus_monomials inner_radius outer_radius center))).
(** primitive_funcs_lib.cpp 562-678: TorusBzr; the axis is always normalized (a zero axis gives NaN coefficients: UB). *)
Definition torus_monomials (major_radius minor_radius : R) (center unit_axis : list R) : list R :=
  let o0 := vx center 0 in let o1 := vx center 1 in let o2 := vx center 2 in
  let o0_2 := o0 * o0 in let o1_2 := o1 * o1 in let o2_2 := o2 * o2 in
  let a0 := vx unit_axis 0 in let a1 := vx unit_axis 1 in let a2 := vx unit_axis 2 in
  let a0_2 := a0 * a0 in let a1_2 := a1 * a1 in let a2_2 := a2 * a2 in
  let R_2 := major_radius * major_radius in let r_2 := minor_radius * minor_radius in
  assign_all (tp_const 3 5)
    [([0; 0; 0]%nat, R_2 * R_2 + 4 * R_2 * a0_2 * o0_2 + 8 * R_2 * a0 * a1 * o0 * o1 + 8 * R_2 * a0 * a2 * o0 * o2 + 4 * R_2 * a1_2 * o1_2 + 8 * R_2 * a1 * a2 * o1 * o2 + 4 * R_2 * a2_2 * o2_2 - 2 * R_2 * o0_2 - 2 * R_2 * o1_2 - 2 * R_2 * o2_2 - 2 * R_2 * r_2 + o0_2 * o0_2 + 2 * o0_2 * o1_2 + 2 * o0_2 * o2_2 - 2 * o0_2 * r_2 + o1_2 * o1_2 + 2 * o1_2 * o2_2 - 2 * o1_2 * r_2 + o2_2 * o2_2 - 2 * o2_2 * r_2 + r_2 * r_2);
     ([1; 0; 0]%nat, -8 * R_2 * a0_2 * o0 - 8 * R_2 * a0 * a1 * o1 - 8 * R_2 * a0 * a2 * o2 + 4 * R_2 * o0 - 4 * o0_2 * o0 - 4 * o0 * o1_2 - 4 * o0 * o2_2 + 4 * o0 * r_2);
     ([0; 1; 0]%nat, -8 * R_2 * a0 * a1 * o0 - 8 * R_2 * a1_2 * o1 - 8 * R_2 * a1 * a2 * o2 + 4 * R_2 * o1 - 4 * o0_2 * o1 - 4 * o1_2 * o1 - 4 * o1 * o2_2 + 4 * o1 * r_2);
     ([0; 0; 1]%nat, -8 * R_2 * a0 * a2 * o0 - 8 * R_2 * a1 * a2 * o1 - 8 * R_2 * a2_2 * o2 + 4 * R_2 * o2 - 4 * o0_2 * o2 - 4 * o1_2 * o2 - 4 * o2_2 * o2 + 4 * o2 * r_2);
     ([1; 1; 0]%nat, 8 * R_2 * a0 * a1 + 8 * o0 * o1);
     ([1; 0; 1]%nat, 8 * o0 * o2 + 8 * R_2 * a0 * a2);
     ([0; 1; 1]%nat, 8 * R_2 * a1 * a2 + 8 * o1 * o2);
     ([2; 0; 0]%nat, 4 * R_2 * a0_2 - 2 * R_2 + 6 * o0_2 + 2 * o1_2 + 2 * o2_2 - 2 * r_2);
     ([0; 2; 0]%nat, 4 * R_2 * a1_2 - 2 * R_2 + 2 * o0_2 + 6 * o1_2 + 2 * o2_2 - 2 * r_2);
     ([0; 0; 2]%nat, 4 * R_2 * a2_2 - 2 * R_2 + 2 * o0_2 + 6 * o2_2 - 2 * r_2 + 2 * o1_2);
     ([3; 0; 0]%nat, -4 * o0);
     ([0; 3; 0]%nat, -4 * o1);
     ([0; 0; 3]%nat, -4 * o2);
     ([1; 2; 0]%nat, -4 * o0);
     ([1; 0; 2]%nat, -4 * o0);
     ([0; 1; 2]%nat, -4 * o1);
     ([2; 1; 0]%nat, -4 * o1);
     ([2; 0; 1]%nat, -4 * o2);
     ([0; 2; 1]%nat, -4 * o2);
     ([2; 2; 0]%nat, 2);
     ([2; 0; 2]%nat, 2);
     ([0; 2; 2]%nat, 2);
     ([4; 0; 0]%nat, 1);
     ([0; 4; 0]%nat, 1);
     ([0; 0; 4]%nat, 1)]
    (zero_coefs 3 5).
Definition torus_bzr (major_radius minor_radius : R) (center axis : list R) : outcome poly :=
  assert_ (Rltb 0 minor_radius && Rltb minor_radius major_radius) (
  unit_axis <- div_by axis (vec_norm axis) ;;
  bezier_of_mono (mk_poly (tp_const 3 5) (torus_monomials major_radius minor_radius center unit_axis))).
(** primitive_funcs_lib.cpp 761-764: ConstantBzr<dim>. *)
Definition constant_bzr (dim : nat) (value : R) : outcome poly := make_poly (tp_const dim 1) [value].
(** primitive_funcs_lib.cpp 817-838: PlaneBzr<dim>; the normal is normalized (a zero normal gives NaN coefficients: UB). *)
Definition plane_monomials (dim : nat) (origin unit_normal : list R) : list R :=
  let o := tp_const dim 2 in
  fold_left (fun c dir => set_coef o (unit_index dim dir 1) (vx unit_normal dir) (add_coef o (repeat O dim) (- (vx origin dir * vx unit_normal dir)) c))
    (seq 0 dim) (zero_coefs dim 2).
Definition plane_bzr (dim : nat) (origin normal : list R) : outcome poly :=
  unit_normal <- div_by normal (vec_norm normal) ;;
  bezier_of_mono (mk_poly (tp_const dim 2) (plane_monomials dim origin unit_normal)).
