(** Properties C37, C63, C64, C66, C67, C68 and C78: level-set functions, their derivatives and the solids they describe. *)
From Coq Require Import Reals List Lia Lra.
From Verif Require Import M_Funcs S_Affine S_Funcs L_Real L_Affine L_Deriv L_Tpms L_Funcs L_Funcs2 L_FuncsSign.
Import ListNotations.
Open Scope R_scope.

(** C37: for every base function (its value, gradient and Hessian), also at single points of differentiability. *)
Theorem C37_chain_rule : forall dim base T, (dim = 2 \/ dim = 3)%nat -> length T = (dim * (dim + 1))%nat -> default_tol < Rabs (aff_det dim T) ->
  exists f, transformed dim base T = Ret f /\
    (forall q, length q = dim -> fval f (affine dim T q) = fval base q) /\
    (forall q, length q = dim -> has_gradient dim (fval base) q (fgrad base q) -> has_gradient dim (fval f) (affine dim T q) (fgrad f (affine dim T q))) /\
    (forall q, length q = dim -> has_hessian dim (fval base) q (fhess base q) -> has_hessian dim (fval f) (affine dim T q) (fhess f (affine dim T q))).
Proof. exact transformed_body. Qed.
Print Assumptions C37_chain_rule.
Example C37_nonvacuous : default_tol < Rabs (aff_det 2 [1; 2; 0; 3; 5; 7]) /\
  exists f, sphere 2 2 [1; 1] = Ret f /\ has_gradient 2 (fval f) [3; 4] (fgrad f [3; 4]) /\ has_hessian 2 (fval f) [3; 4] (fhess f [3; 4]).
Proof.
  split. { unfold aff_det, det2, default_tol, M_Domain.eps. cbn [firstn skipn nth]. replace (1 * 3 - 2 * 0) with 3 by ring. rewrite Rabs_pos_eq; lra. }
  eexists. assert (E : sphere 2 2 [1; 1] = Ret (mk_func (fun p => sqrnorm (vsub p [1; 1]) - 2 * 2) (fun p => vscale 2 (vsub p [1; 1])) (fun _ => [2; 0; 2]))).
  { unfold sphere. replace (Rltb 0 2) with true by (symmetry; apply Rltb_true; lra). reflexivity. }
  split; [exact E|]. split; [eapply (sphere_grad 2 2 [1; 1]); eauto|eapply (sphere_hess 2 2 [1; 1]); eauto].
Qed.

(** C63.  Every primitive but the annulus; the assertions of the constructors are the only hypotheses on the parameters. *)
Theorem C63_gradients_partial :
  (forall dim r c f, (dim = 2 \/ dim = 3)%nat -> length c = dim -> sphere dim r c = Ret f -> grad_ok dim (fval f) (fgrad f)) /\
  (forall r o a f, length o = 3%nat -> length a = 3%nat -> cylinder r o a = Ret f -> grad_ok 3 (fval f) (fgrad f)) /\
  (forall dim sa sys f, (dim = 2 \/ dim = 3)%nat -> frame_ok dim sa (r_origin sys) (r_basis sys) -> ellipsoid dim sa sys = Ret f -> grad_ok dim (fval f) (fgrad f)) /\
  (forall R0 r0 c a f, length c = 3%nat -> length a = 3%nat -> torus R0 r0 c a = Ret f -> grad_ok 3 (fval f) (fgrad f)) /\
  (forall dim v, (dim = 2 \/ dim = 3)%nat -> grad_ok dim (fval (constant dim v)) (fgrad (constant dim v))) /\
  (forall dim o n, (dim = 2 \/ dim = 3)%nat -> length o = dim -> length n = dim -> grad_ok dim (fval (plane dim o n)) (fgrad (plane dim o n))).
Proof.
  exact (conj sphere_grad (conj cylinder_grad (conj ell_grad (conj torus_grad (conj (fun d v H => proj1 (constant_ok d v H)) (fun d o n H1 H2 H3 => proj1 (plane_ok d o n H1 H2 H3))))))).
Qed.
Print Assumptions C63_gradients_partial.
(** The annulus: the reported gradient is wrong at every point but the center. *)
Theorem C63_annulus_refuted : forall ri ro c f p, length c = 2%nat -> annulus ri ro c = Ret f -> length p = 2%nat -> p <> c ->
  ~ has_gradient 2 (fval f) p (fgrad f p).
Proof. exact annulus_grad_wrong. Qed.
Print Assumptions C63_annulus_refuted.
Theorem C63_annulus_partial : forall ri ro c f p, length c = 2%nat -> annulus ri ro c = Ret f -> length p = 2%nat ->
  has_gradient 2 (fval f) p (map (fun i => (4 * (edist p c * edist p c) - 2 * ri * ri - 2 * ro * ro) * (nth i p 0 - nth i c 0)) (seq 0 2)).
Proof. exact (fun ri ro c f p Hc H Hp => annulus_grad_true ri ro c f Hc H p Hp). Qed.
Print Assumptions C63_annulus_partial.
Example C63_nonvacuous : exists f, annulus 1 2 [0; 0] = Ret f.
Proof. unfold annulus. replace (Rltb 0 1) with true by (symmetry; apply Rltb_true; lra). replace (Rltb 1 2) with true by (symmetry; apply Rltb_true; lra). eexists; reflexivity. Qed.

(** C64.  Every function but the cylinder, the annulus and the trilinear function. *)
Theorem C64_hessians_partial :
  (forall dim r c f, (dim = 2 \/ dim = 3)%nat -> length c = dim -> sphere dim r c = Ret f -> hess_ok dim (fval f) (fhess f)) /\
  (forall dim sa sys f, (dim = 2 \/ dim = 3)%nat -> frame_ok dim sa (r_origin sys) (r_basis sys) -> ellipsoid dim sa sys = Ret f -> hess_ok dim (fval f) (fhess f)) /\
  (forall R0 r0 c a f, length c = 3%nat -> length a = 3%nat -> torus R0 r0 c a = Ret f -> hess_ok 3 (fval f) (fhess f)) /\
  (forall dim v, (dim = 2 \/ dim = 3)%nat -> hess_ok dim (fval (constant dim v)) (fhess (constant dim v))) /\
  (forall dim o n, (dim = 2 \/ dim = 3)%nat -> length o = dim -> length n = dim -> hess_ok dim (fval (plane dim o n)) (fhess (plane dim o n))) /\
  (forall cf, hess_ok 2 (fval (dim_linear 2 cf)) (fhess (dim_linear 2 cf))) /\
  (* the trilinear function: every entry but (y,z) *)
  (forall cf p, length p = 3%nat -> exists h, has_hessian 3 (fval (dim_linear 3 cf)) p h /\
     forall i, (i < 6)%nat -> i <> 4%nat -> nth i (fhess (dim_linear 3 cf) p) 0 = nth i h 0).
Proof.
  refine (conj sphere_hess (conj ell_hess (conj torus_hess (conj (fun d v H => proj2 (constant_ok d v H)) (conj (fun d o n H1 H2 H3 => proj2 (plane_ok d o n H1 H2 H3)) (conj dl_hess2 _)))))).
  intros cf p Hp. exists (dl_true_hess3 cf p). split; [exact (dl_hess3 cf p Hp)|].
  intros i Hi N. do 6 (destruct i as [|i]; [first [reflexivity|congruence]|]). lia.
Qed.
Print Assumptions C64_hessians_partial.
(** The cylinder and the annulus report a wrong Hessian at every point, the trilinear function a wrong (y,z) entry. *)
Theorem C64_cylinder_refuted : forall r o a f p, length o = 3%nat -> length a = 3%nat -> default_tol < vec_norm a -> cylinder r o a = Ret f ->
  length p = 3%nat -> ~ has_hessian 3 (fval f) p (fhess f p).
Proof. exact cylinder_hess_wrong. Qed.
Print Assumptions C64_cylinder_refuted.
Theorem C64_annulus_refuted : forall ri ro c f p, length c = 2%nat -> annulus ri ro c = Ret f -> length p = 2%nat -> ~ has_hessian 2 (fval f) p (fhess f p).
Proof. exact annulus_hess_wrong. Qed.
Print Assumptions C64_annulus_refuted.
Theorem C64_trilinear_refuted : exists cf p, length cf = 8%nat /\ length p = 3%nat /\ ~ has_hessian 3 (fval (dim_linear 3 cf)) p (fhess (dim_linear 3 cf) p).
Proof. exact (ex_intro _ [0; 0; 0; 0; 0; 0; 1; 0] (ex_intro _ [0; 0; 0] (conj eq_refl (conj eq_refl dl_hess_wrong)))). Qed.
Print Assumptions C64_trilinear_refuted.
Example C64_nonvacuous : exists f, cylinder 1 [0; 0; 0] [0; 0; 2] = Ret f /\ default_tol < vec_norm [0; 0; 2].
Proof.
  unfold cylinder. replace (Rltb 0 1) with true by (symmetry; apply Rltb_true; lra). eexists. split; [reflexivity|].
  rewrite norm3_eq. replace (0 * 0 + 0 * 0 + 2 * 2) with (2 * 2) by ring. rewrite sqrt_square by lra. unfold default_tol, M_Domain.eps. lra.
Qed.

(** C66.  [m] are the three parameters; in 2D, [z] is the fixed third coordinate. *)
Theorem C66_periodic : forall k dim m z p i, (dim = 2 \/ dim = 3)%nat -> length m = 3%nat -> length p = dim -> (i < dim)%nat -> nth i m 0 <> 0 ->
  fval (tpms_func k dim m z) (map (fun j => if Nat.eqb j i then nth j p 0 + / nth i m 0 else nth j p 0) (seq 0 dim)) = fval (tpms_func k dim m z) p.
Proof. intros k dim m z p i [-> | ->]; [exact (tpms_period2 k m z p i)|exact (tpms_period3 k m z p i)]. Qed.
Print Assumptions C66_periodic.
(** The functions, with X = 2 pi m x, Y = 2 pi n y, Z = 2 pi q z; a 2D function is the section of the 3D one at height z. *)
Theorem C66_values : forall x y z m n q h, let X := 2 * PI * m * x in let Y := 2 * PI * n * y in let Z := 2 * PI * q * z in
  let f := fun k => fval (tpms_func k 3 [m; n; q] h) [x; y; z] in
  f KSchoen = sin X * cos Y + sin Y * cos Z + sin Z * cos X /\
  f KSchoenIWP = 2 * (cos X * cos Y + cos Y * cos Z + cos Z * cos X) - (cos (2 * X) + cos (2 * Y) + cos (2 * Z)) /\
  f KSchoenFRD = 4 * (cos X * cos Y * cos Z) - (cos (2 * X) * cos (2 * Y) + cos (2 * Y) * cos (2 * Z) + cos (2 * Z) * cos (2 * X)) /\
  f KFischerKochS = cos (2 * X) * sin Y * cos Z + cos X * cos (2 * Y) * sin Z + sin X * cos Y * cos (2 * Z) /\
  f KSchwarzDiamond = cos X * cos Y * cos Z - sin X * sin Y * sin Z /\
  f KSchwarzPrimitive = cos X + cos Y + cos Z.
Proof. intros x y z m n q h X Y Z f. repeat split; subst f X Y Z; cbv [tpms_func tpms fval extend_to_3D schoen_eval schoeniwp_eval schoenfrd_eval fischerkochs_eval schwarzdiamond_eval schwarzprimitive_eval tt2 tt4 tk2 vx nth]; ring. Qed.
Print Assumptions C66_values.
Theorem C66_section : forall k x y z m h, fval (tpms_func k 2 m z) [x; y] = fval (tpms_func k 3 m h) [x; y; z] /\
  fgrad (tpms_func k 2 m z) [x; y] = firstn 2 (fgrad (tpms_func k 3 m h) [x; y; z]).
Proof. intros k x y z m h. destruct k; split; reflexivity. Qed.
Print Assumptions C66_section.
Theorem C66_gradients_partial : forall k dim m z p, (dim = 2 \/ dim = 3)%nat -> length m = 3%nat -> length p = dim -> (k = KSchoenIWP -> nth 0 m 0 = nth 1 m 0) ->
  has_gradient dim (fval (tpms_func k dim m z)) p (fgrad (tpms_func k dim m z) p).
Proof. intros k dim m z p [-> | ->]; [exact (tpms_grad2 k m z p)|exact (tpms_grad3 k m z p)]. Qed.
Print Assumptions C66_gradients_partial.
Theorem C66_hessians_partial :
  (forall k m z p, length m = 3%nat -> length p = 2%nat -> has_hessian 2 (fval (tpms_func k 2 m z)) p (fhess (tpms_func k 2 m z) p)) /\
  (forall k m z p, length m = 3%nat -> length p = 3%nat -> k <> KSchoen -> has_hessian 3 (fval (tpms_func k 3 m z)) p (fhess (tpms_func k 3 m z) p)) /\
  (* Schoen in 3D: every entry but (x,z) *)
  (forall m z p, length m = 3%nat -> length p = 3%nat -> exists h, has_hessian 3 (fval (tpms_func KSchoen 3 m z)) p h /\
     forall i, (i < 6)%nat -> i <> 2%nat -> nth i (fhess (tpms_func KSchoen 3 m z) p) 0 = nth i h 0).
Proof.
  refine (conj tpms_hess2 (conj _ _)).
  - intros k m z p Hm Hp Hk. pose proof (tpms_hess3 k m z p Hm Hp) as H. destruct k; first [exact H|congruence].
  - intros m z p Hm Hp. exists (true_hess KSchoen 3 m z p). split; [exact (tpms_hess3 KSchoen m z p Hm Hp)|].
    intros i Hi N. do 6 (destruct i as [|i]; [first [reflexivity|congruence]|]). lia.
Qed.
Print Assumptions C66_hessians_partial.
Theorem C66_iwp_gradient_refuted : exists m p, length m = 3%nat /\ length p = 3%nat /\
  forall z, ~ has_gradient 3 (fval (tpms_func KSchoenIWP 3 m z)) p (fgrad (tpms_func KSchoenIWP 3 m z) p).
Proof. exact (ex_intro _ [1; 2; 1] (ex_intro _ [0; / 8; 0] (conj eq_refl (conj eq_refl iwp_grad_wrong)))). Qed.
Print Assumptions C66_iwp_gradient_refuted.
Theorem C66_schoen_hessian_refuted : exists m p, length m = 3%nat /\ length p = 3%nat /\
  forall z, ~ has_hessian 3 (fval (tpms_func KSchoen 3 m z)) p (fhess (tpms_func KSchoen 3 m z) p).
Proof. exact (ex_intro _ [1; 1; 1] (ex_intro _ [/ 4; 0; 0] (conj eq_refl (conj eq_refl schoen_hess_wrong)))). Qed.
Print Assumptions C66_schoen_hessian_refuted.

(** C67 *)
Theorem C67_algebra : forall d f g p,
  (fval (negative f) p = - fval f p /\ fval (add_functions f g) p = fval f p + fval g p /\ fval (subtract_functions f g) p = fval f p - fval g p) /\
  (has_gradient d (fval f) p (fgrad f p) -> has_gradient d (fval g) p (fgrad g p) ->
     has_gradient d (fun q => - fval f q) p (fgrad (negative f) p) /\ has_gradient d (fun q => fval f q + fval g q) p (fgrad (add_functions f g) p) /\
     has_gradient d (fun q => fval f q - fval g q) p (fgrad (subtract_functions f g) p)) /\
  (has_hessian d (fval f) p (fhess f p) -> has_hessian d (fval g) p (fhess g p) ->
     has_hessian d (fun q => - fval f q) p (fhess (negative f) p) /\ has_hessian d (fun q => fval f q + fval g q) p (fhess (add_functions f g) p) /\
     has_hessian d (fun q => fval f q - fval g q) p (fhess (subtract_functions f g) p)).
Proof.
  exact (fun d f g p => conj (conj eq_refl (conj eq_refl eq_refl)) (conj
    (fun H K => conj (hg_opp _ _ _ _ H) (conj (hg_add _ _ _ _ _ _ H K) (hg_sub _ _ _ _ _ _ H K)))
    (fun H K => conj (hh_opp _ _ _ _ H) (conj (hh_add _ _ _ _ _ _ H K) (hh_sub _ _ _ _ _ _ H K))))).
Qed.
Print Assumptions C67_algebra.
Example C67_nonvacuous : has_gradient 2 (fval (constant 2 5)) [1; 2] (fgrad (constant 2 5) [1; 2]) /\
  has_hessian 2 (fval (plane 2 [0; 1] [3; 4])) [1; 2] (fhess (plane 2 [0; 1] [3; 4]) [1; 2]).
Proof. split; [apply (proj1 (constant_ok 2 5 (or_introl eq_refl))); reflexivity|apply (proj2 (plane_ok 2 [0; 1] [3; 4] (or_introl eq_refl) eq_refl eq_refl)); reflexivity]. Qed.

(** C68 *)
Theorem C68_square : forall dim p, (0 < dim)%nat -> length p = dim ->
  (fval (square dim) p < 0 <-> Forall (fun x => -1 < x < 1) p) /\
  (fval (square dim) p = 0 <-> Forall (fun x => -1 <= x <= 1) p /\ Exists (fun x => x = 1 \/ x = -1) p) /\
  (forall i, (i < dim)%nat -> nth i p 0 <> 0 -> (forall j, (j < dim)%nat -> j <> i -> Rabs (nth j p 0) < Rabs (nth i p 0)) ->
     has_gradient dim (fval (square dim)) p (fgrad (square dim) p)).
Proof.
  intros dim p Hd Hp. assert (N : p <> []) by (destruct p; simpl in *; [lia|discriminate]).
  exact (conj (proj1 (square_sign dim p N)) (conj (proj2 (square_sign dim p N)) (fun i Hi Hn Hm => square_grad dim p i Hp Hi Hn Hm))).
Qed.
Print Assumptions C68_square.
Example C68_nonvacuous : forall j, (j < 3)%nat -> j <> 1%nat -> Rabs (nth j [/ 2; -2; 1] 0) < Rabs (nth 1 [/ 2; -2; 1] 0).
Proof. intros j Hj N. destruct j as [|[|[|j]]]; cbn [nth]; try lia; try congruence; unfold Rabs; repeat destruct (Rcase_abs _); lra. Qed.
Theorem C68_multilinear : forall cf,
  (forall bx by_, (bx <= 1 /\ by_ <= 1)%nat -> fval (dim_linear 2 cf) [INR bx; INR by_] = nth (bx + 2 * by_) cf 0) /\
  (forall bx by_ bz, (bx <= 1 /\ by_ <= 1 /\ bz <= 1)%nat -> fval (dim_linear 3 cf) [INR bx; INR by_; INR bz] = nth (bx + 2 * by_ + 4 * bz) cf 0) /\
  (forall dim, (dim = 2 \/ dim = 3)%nat -> grad_ok dim (fval (dim_linear dim cf)) (fgrad (dim_linear dim cf))).
Proof.
  intros cf. split; [|split; [|exact (fun dim H => dl_grad dim cf H)]].
  - intros bx by_ H. destruct (dl_corner2 cf bx by_) as [E|E]; [exact E|contradiction].
  - intros bx by_ bz H. destruct (dl_corner3 cf bx by_ bz) as [E|E]; [exact E|contradiction].
Qed.
Print Assumptions C68_multilinear.

(** C78: the sign of the primitives describes the solid they are named after. *)
Theorem C78_solids :
  (forall dim r c f p, (dim = 2 \/ dim = 3)%nat -> length c = dim -> length p = dim -> sphere dim r c = Ret f ->
     (fval f p < 0 <-> edist p c < r) /\ (fval f p = 0 <-> edist p c = r)) /\
  (forall ri ro c f p, length c = 2%nat -> length p = 2%nat -> annulus ri ro c = Ret f ->
     (fval f p < 0 <-> ri < edist p c < ro) /\ (fval f p = 0 <-> edist p c = ri \/ edist p c = ro)) /\
  (forall r o a f p, length o = 3%nat -> length a = 3%nat -> length p = 3%nat -> default_tol < vec_norm a -> cylinder r o a = Ret f ->
     (fval f p < 0 <-> exists t, edist p (on_line o a t) < r) /\
     (fval f p = 0 <-> (exists t, edist p (on_line o a t) = r) /\ forall t, r <= edist p (on_line o a t))) /\
  (forall R0 r0 c a f p, length c = 3%nat -> length a = 3%nat -> length p = 3%nat -> default_tol < vec_norm a -> torus R0 r0 c a = Ret f ->
     (fval f p < 0 <-> exists q, on_circle c a R0 q /\ edist p q < r0)) /\
  (forall dim sa sys f p, (dim = 2 \/ dim = 3)%nat -> length sa = dim -> length (r_origin sys) = dim -> length (r_basis sys) = dim -> orthonormal (r_basis sys) ->
     ellipsoid dim sa sys = Ret f -> length p = dim -> exists u, length u = dim /\ p = in_frame (r_origin sys) (r_basis sys) u /\
     fval f p = fold_right Rplus 0 (map (fun i => (nth i u 0 / nth i sa 0) * (nth i u 0 / nth i sa 0)) (seq 0 dim)) - 1) /\
  (forall dim o n p, (dim = 2 \/ dim = 3)%nat -> length o = dim -> length n = dim -> length p = dim ->
     fval (plane dim o n) p = fold_right Rplus 0 (map (fun i => (nth i p 0 - nth i o 0) * nth i n 0) (seq 0 dim))).
Proof. exact (conj sphere_sign (conj annulus_sign (conj cylinder_sign (conj torus_sign (conj ell_sign plane_sign))))). Qed.
Print Assumptions C78_solids.
Example C78_nonvacuous : exists f, torus 2 1 [0; 0; 0] [0; 0; 2] = Ret f.
Proof. unfold torus. replace (Rltb 0 1) with true by (symmetry; apply Rltb_true; lra). replace (Rltb 1 2) with true by (symmetry; apply Rltb_true; lra). eexists; reflexivity. Qed.
