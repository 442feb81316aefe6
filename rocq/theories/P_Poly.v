(** Properties of the tensor-product polynomials (C52-C61, C80-C82). *)
From Coq Require Import Reals List Lia Lra Binomial ZArith.
From Coquelicot Require Import Coquelicot.
From Verif Require Import M_Poly S_Poly S_Affine L_Real L_Poly5 L_Poly6 L_Poly7 L_Poly8 L_Poly9 L_Poly10.
Import ListNotations.
Local Close Scope Z_scope.
Local Open Scope R_scope.

(** C52: the Bernstein basis, its derivatives of any order, non-negativity on [0,1], partition of unity. *)
Theorem C52_bernstein_basis : forall x order der, (0 < order)%nat -> exists v, evaluate_Bernstein x order der = Ret v /\ length v = order /\
  (forall i, (i < order)%nat -> is_derive_n (fun y => bernstein order i y) der x (nth i v 0)) /\
  (der = 0%nat -> (forall i, (i < order)%nat -> nth i v 0 = bernstein order i x /\ (0 <= x <= 1 -> 0 <= nth i v 0)) /\ fold_right Rplus 0 v = 1).
Proof. exact bernstein_basis_ok. Qed.
Print Assumptions C52_bernstein_basis.

(** C53: De Casteljau is the Bernstein expansion; convex hull bounds on the unit box. *)
Theorem C53_casteljau : forall p x, valid_poly p -> length x = length (p_order p) ->
  bezier_eval p x = expansion bernstein p x /\
  forall lo hi, in_unit_box x -> (forall c, In c (p_coefs p) -> lo <= c <= hi) -> lo <= bezier_eval p x <= hi.
Proof. exact (fun p x Hp Hx => conj (bezier_expansion p x Hp Hx) (fun lo hi Hb => bezier_bounds p x lo hi Hp Hx Hb)). Qed.
Print Assumptions C53_casteljau.
Example C53_nonvacuous : valid_poly (mk_poly [2; 3]%nat [1; 2; 3; 4; 5; 6]) /\ in_unit_box [/ 2; / 3].
Proof. split; [split; [discriminate|split; [repeat constructor|reflexivity]]|repeat constructor; lra]. Qed.

(** C54: the sign test is sound on the unit box. *)
Theorem C54_sign : forall p x, valid_poly p -> length x = length (p_order p) -> in_unit_box x ->
  (bezier_sign p = Spos -> 0 < bezier_eval p x) /\ (bezier_sign p = Sneg -> bezier_eval p x < 0).
Proof. exact bezier_sign_ok. Qed.
Print Assumptions C54_sign.
Example C54_nonvacuous : bezier_sign (mk_poly [2]%nat [1; 3]) = Spos.
Proof. unfold bezier_sign. cbn. replace (Rltb 0 1) with true by (symmetry; apply L_Real.Rltb_true; lra). replace (Rltb 0 3) with true by (symmetry; apply L_Real.Rltb_true; lra). reflexivity. Qed.

(** C55: the gradient is the derivative of the evaluation. *)
Theorem C55_bezier_gradient : forall p x, valid_poly p -> length x = length (p_order p) -> has_gradient (length (p_order p)) (bezier_eval p) x (bezier_grad p x).
Proof. exact bezier_grad_ok. Qed.
Print Assumptions C55_bezier_gradient.

(** C56: arithmetic.  The library instantiates dimensions 1 to 3. *)
Theorem C56_arithmetic : forall p q, valid_poly p -> valid_poly q -> length (p_order q) = length (p_order p) -> (1 <= length (p_order p) <= 3)%nat ->
  (exists r, bezier_product p q = Ret r /\ valid_poly r /\ length (p_order r) = length (p_order p) /\ forall x, length x = length (p_order p) -> bezier_eval r x = bezier_eval p x * bezier_eval q x) /\
  (exists r, bezier_add p q = Ret r /\ valid_poly r /\ length (p_order r) = length (p_order p) /\ forall x, length x = length (p_order p) -> bezier_eval r x = bezier_eval p x + bezier_eval q x) /\
  (exists r, bezier_sub p q = Ret r /\ valid_poly r /\ length (p_order r) = length (p_order p) /\ forall x, length x = length (p_order p) -> bezier_eval r x = bezier_eval p x - bezier_eval q x) /\
  (valid_poly (bezier_negate p) /\ forall x, length x = length (p_order p) -> bezier_eval (bezier_negate p) x = - bezier_eval p x) /\
  (forall new, length new = length (p_order p) -> (forall d, (d < length new)%nat -> (nth d (p_order p) O <= nth d new O)%nat) ->
     exists r, raise_order p new = Ret r /\ valid_poly r /\ p_order r = new /\ forall x, length x = length (p_order p) -> bezier_eval r x = bezier_eval p x).
Proof. exact arithmetic_ok. Qed.
Print Assumptions C56_arithmetic.

(** C57: facets of Bezier polynomials: facet f fixes direction f/2 at f mod 2. *)
Theorem C57_bezier_facet : forall p f, valid_poly p -> (2 <= length (p_order p))%nat -> (0 <= f < Z.of_nat (length (p_order p)) * 2)%Z ->
  exists q, extract_facet p f = Ret q /\ valid_poly q /\ length (p_order q) = (length (p_order p) - 1)%nat /\
    forall y, length y = (length (p_order p) - 1)%nat -> bezier_eval q y = bezier_eval p (insert_at (Z.to_nat (f / 2)) (IZR (f mod 2)) y).
Proof. exact bezier_facet_ok. Qed.
Print Assumptions C57_bezier_facet.

(** C58: monomials: the value is the expansion; the gradient is wrong when some order is 1 (and the dimension is greater than 1). *)
Theorem C58_monomial_value : forall p x, valid_poly p -> length x = length (p_order p) -> mono_eval p x = expansion monomial p x.
Proof. exact mono_expansion. Qed.
Print Assumptions C58_monomial_value.
Theorem C58_monomial_gradient_refuted : ~ forall p x, valid_poly p -> length x = length (p_order p) -> has_gradient (length (p_order p)) (mono_eval p) x (mono_grad p x).
Proof. exact mono_grad_wrong. Qed.
Print Assumptions C58_monomial_gradient_refuted.
Theorem C58_monomial_gradient_partial : forall p x, valid_poly p -> Forall (fun n => (2 <= n)%nat) (p_order p) \/ length (p_order p) = 1%nat -> length x = length (p_order p) ->
  has_gradient (length (p_order p)) (mono_eval p) x (mono_grad p x).
Proof. exact mono_grad_ok. Qed.
Print Assumptions C58_monomial_gradient_partial.
Example C58_nonvacuous : valid_poly (mk_poly [2; 3]%nat [1; 2; 3; 4; 5; 6]) /\ Forall (fun n => (2 <= n)%nat) [2; 3]%nat.
Proof. split; [split; [discriminate|split; [repeat constructor|reflexivity]]|repeat constructor]. Qed.

(** C59: the derivative polynomial; with degree 0 a copy. *)
Theorem C59_derivative : forall p dir, valid_poly p -> (dir < length (p_order p))%nat ->
  ((2 <= nth dir (p_order p) O)%nat -> exists q, create_derivative p dir = Ret q /\ valid_poly q /\
     forall x, length x = length (p_order p) -> is_derive (fun s : R => mono_eval p (set_at x dir s)) (nth dir x 0) (mono_eval q x)) /\
  (nth dir (p_order p) O = 1%nat -> create_derivative p dir = Ret p).
Proof. exact derivative_ok. Qed.
Print Assumptions C59_derivative.

(** C60: facets of monomials are wrong on side 1. *)
Theorem C60_monomial_facet_refuted : ~ forall p f y q, valid_poly p -> (2 <= length (p_order p))%nat -> (0 <= f < Z.of_nat (length (p_order p)) * 2)%Z ->
  length y = (length (p_order p) - 1)%nat -> extract_facet p f = Ret q -> mono_eval q y = mono_eval p (insert_at (Z.to_nat (f / 2)) (IZR (f mod 2)) y).
Proof. exact mono_facet_wrong. Qed.
Print Assumptions C60_monomial_facet_refuted.
Theorem C60_monomial_facet_partial : forall p f, valid_poly p -> (2 <= length (p_order p))%nat -> (0 <= f < Z.of_nat (length (p_order p)) * 2)%Z ->
  exists q, extract_facet p f = Ret q /\ valid_poly q /\ length (p_order q) = (length (p_order p) - 1)%nat /\
    forall y, length y = (length (p_order p) - 1)%nat -> (f mod 2 = 0)%Z \/ nth (Z.to_nat (f / 2)) (p_order p) O = 1%nat ->
      mono_eval q y = mono_eval p (insert_at (Z.to_nat (f / 2)) (IZR (f mod 2)) y).
Proof. exact mono_facet_ok. Qed.
Print Assumptions C60_monomial_facet_partial.

(** C61: conversion from monomials to Bezier. *)
Theorem C61_mono_to_bezier : forall p, valid_poly p -> exists q, bezier_of_mono p = Ret q /\ valid_poly q /\ p_order q = p_order p /\
  forall x, length x = length (p_order p) -> bezier_eval q x = mono_eval p x.
Proof. exact bezier_of_mono_ok. Qed.
Print Assumptions C61_mono_to_bezier.

(** C80: Hessians. *)
Theorem C80_hessians : forall p x, valid_poly p -> (length (p_order p) <= 3)%nat -> length x = length (p_order p) ->
  has_hessian (length (p_order p)) (bezier_eval p) x (bezier_hessian p x) /\ has_hessian (length (p_order p)) (mono_eval p) x (mono_hessian p x).
Proof. exact (fun p x Hp H3 Hx => conj (bezier_hessian_ok p x Hp H3 Hx) (mono_hessian_ok p x Hp H3 Hx)). Qed.
Print Assumptions C80_hessians.

(** C81: composition: [rhs] lists the components of the inner map, of dimension k. *)
Theorem C81_composition : forall lhs rhs k, valid_poly lhs -> (1 <= length (p_order lhs) <= 3)%nat -> (1 <= k <= 3)%nat -> length rhs = length (p_order lhs) ->
  Forall (fun g => valid_poly g /\ length (p_order g) = k) rhs ->
  exists r, bezier_compose lhs rhs = Ret r /\ valid_poly r /\ length (p_order r) = k /\
    forall x, length x = k -> bezier_eval r x = bezier_eval lhs (map (fun g => bezier_eval g x) rhs).
Proof. exact bezier_compose_ok. Qed.
Print Assumptions C81_composition.
Example C81_nonvacuous : let lhs := mk_poly [2; 3]%nat [1; 2; 3; 4; 5; 6] in let g := mk_poly [2]%nat [0; 1] in
  valid_poly lhs /\ Forall (fun g => valid_poly g /\ length (p_order g) = 1%nat) [g; g].
Proof. cbv zeta. split; [split; [discriminate|split; [repeat constructor|reflexivity]]|]. repeat constructor; discriminate. Qed.

(** C82: the constructors and the transformations of the image of a Bezier polynomial. *)
Theorem C82_image_transforms : forall p, valid_poly p ->
  (forall scale shift, valid_poly (coefs_linear_transform p scale shift) /\
     forall x, length x = length (p_order p) -> bezier_eval (coefs_linear_transform p scale shift) x = scale * bezier_eval p x + shift) /\
  (forall old_lo old_len new_lo new_len, valid_poly (transform_image p old_lo old_len new_lo new_len) /\
     forall x, length x = length (p_order p) ->
       bezier_eval (transform_image p old_lo old_len new_lo new_len) x = (bezier_eval p x - old_lo) * new_len / old_len + new_lo) /\
  (forall order v c, make_const order v = Ret c -> valid_poly c /\ p_order c = order /\ forall x, length x = length order -> bezier_eval c x = v).
Proof. exact image_ok. Qed.
Print Assumptions C82_image_transforms.
