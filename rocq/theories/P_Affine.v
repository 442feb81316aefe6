(** Properties C36, C38, C39 and C77: affine maps and reference systems.  [dim] is 2 or 3, the dimensions instantiated. *)
From Coq Require Import Reals List Lia Lra.
From Verif Require Import M_Affine S_Affine L_Real L_Affine.
Import ListNotations.
Open Scope R_scope.

(** C36 *)
Theorem C36_compose : forall dim A B C p, (dim = 2 \/ dim = 3)%nat -> length A = (dim * (dim + 1))%nat -> length p = dim ->
  transform_point dim A p = affine dim A p /\
  transform_point dim (compose dim A B) p = transform_point dim A (transform_point dim B p) /\
  compose dim (compose dim A B) C = compose dim A (compose dim B C) /\
  (let I := translation dim [0; 0; 0] in compose dim I A = A /\ compose dim A I = A /\ transform_point dim I p = p).
Proof. exact C36_body. Qed.
Print Assumptions C36_compose.
Theorem C36_inverse : forall dim A p, (dim = 2 \/ dim = 3)%nat -> length A = (dim * (dim + 1))%nat -> length p = dim ->
  default_tol < Rabs (aff_det dim A) -> exists B, inverse dim A = Ret B /\
    transform_point dim B (transform_point dim A p) = p /\ transform_point dim A (transform_point dim B p) = p.
Proof. exact C36_inv_body. Qed.
Print Assumptions C36_inverse.
(** [inverse] aborts (assertion) exactly when the determinant is below the default tolerance. *)
Theorem C36_inverse_domain : forall dim A, (dim = 2 \/ dim = 3)%nat -> length A = (dim * (dim + 1))%nat ->
  (Rabs (aff_det dim A) <= default_tol -> inverse dim A = Abort) /\
  (default_tol < Rabs (aff_det dim A) -> exists B, inverse dim A = Ret B /\ length B = (dim * (dim + 1))%nat /\
     compose dim A B = translation dim [0; 0; 0] /\ compose dim B A = translation dim [0; 0; 0]).
Proof. exact inverse_lemma. Qed.
Print Assumptions C36_inverse_domain.
Example C36_nonvacuous : default_tol < Rabs (aff_det 2 [1; 2; 0; 3; 5; 7]).
Proof. unfold aff_det, det2, default_tol, M_Domain.eps. cbn [firstn skipn nth]. replace (1 * 3 - 2 * 0) with 3 by ring. rewrite Rabs_pos_eq; lra. Qed.

(** C38: refuted for the axis (1,0,0): the second vector is zero. *)
Theorem C38_around_axis_refuted : exists ax, ref_around_axis [1; 0; 0] = Ret (ax, [0; 0; 0]).
Proof. exact around_refuted. Qed.
Print Assumptions C38_around_axis_refuted.
(** It holds for axes whose angle with the x direction is not tiny. *)
Theorem C38_around_axis_partial : forall axis, length axis = 3%nat -> default_tol < vec_norm axis ->
  1 / 10000 * vec_norm axis < sqrt (vx axis 1 * vx axis 1 + vx axis 2 * vx axis 2) ->
  exists e0 e1 e2, ref_around_axis axis = Ret (e0, e1) /\ (orthonormal [e0; e1; e2] /\ det3 e0 e1 e2 = 1) /\ same_direction e2 axis.
Proof. exact around_lemma. Qed.
Print Assumptions C38_around_axis_partial.
Example C38_nonvacuous : default_tol < vec_norm [0; 0; 1] /\ 1 / 10000 * vec_norm [0; 0; 1] < sqrt (vx [0; 0; 1] 1 * vx [0; 0; 1] 1 + vx [0; 0; 1] 2 * vx [0; 0; 1] 2).
Proof.
  rewrite norm3_eq. unfold vx, default_tol, M_Domain.eps. cbn [nth]. replace (0 * 0 + 0 * 0 + 1 * 1) with 1 by ring. replace (0 * 0 + 1 * 1) with 1 by ring.
  rewrite sqrt_1. lra.
Qed.

(** C39 *)
Theorem C39_axis_1d : forall x, x <> 0 -> exists e0, ortho1 [x] = Ret [e0] /\ orthonormal [e0] /\ same_direction e0 [x].
Proof. exact ortho1_lemma. Qed.
Print Assumptions C39_axis_1d.
Theorem C39_axis_2d : forall axis, length axis = 2%nat -> vec_norm axis <> 0 ->
  exists e0 e1, ortho2 axis = Ret [e0; e1] /\ orthonormal [e0; e1] /\ det2 e0 e1 = 1 /\ same_direction e0 axis.
Proof. exact ortho2_lemma. Qed.
Print Assumptions C39_axis_2d.
Theorem C39_axis_3d : forall axis, length axis = 3%nat ->
  (vec_norm axis <= default_tol -> ortho3 axis = Abort) /\
  (default_tol < vec_norm axis -> exists e0 e1 e2, ortho3 axis = Ret [e0; e1; e2] /\ (orthonormal [e0; e1; e2] /\ det3 e0 e1 e2 = 1) /\ same_direction e2 axis).
Proof. exact ortho3_lemma. Qed.
Print Assumptions C39_axis_3d.
(** Two independent axes (their cross product is not zero); also the system of affine_transf.cpp. *)
Theorem C39_axes_3d : forall ax ay, length ax = 3%nat -> length ay = 3%nat -> vec_norm (cross ax ay) <> 0 ->
  exists e0 e1 e2, ortho_axes3 ax ay = Ret [e0; e1; e2] /\ aff_ortho ax ay = Ret [e0; e1; e2] /\
    (orthonormal [e0; e1; e2] /\ det3 e0 e1 e2 = 1) /\ same_direction e0 ax /\
    same_direction e2 (cross ax ay) /\ 0 < inner e1 ay /\ inner e2 ay = 0.
Proof. exact ortho_axes_lemma. Qed.
Print Assumptions C39_axes_3d.
Theorem C39_cartesian : forall dim origin, (1 <= dim <= 3)%nat ->
  orthonormal (r_basis (ref_cartesian dim origin)) /\ is_cartesian dim (ref_cartesian dim origin) = true.
Proof. exact cartesian_lemma. Qed.
Print Assumptions C39_cartesian.
(** is_Cartesian_oriented: true when every axis of the system is, up to the tolerance, the coordinate axis; then, for an orthonormal system, the squared
    distance from each axis to the coordinate axis is at most twice the tolerance. *)
Theorem C39_is_cartesian : forall dim s, is_cartesian dim s = true <-> forall i, (i < dim)%nat -> Rabs (nth i (nth i (r_basis s) []) 0 - 1) <= default_tol.
Proof.
  intros dim s. unfold is_cartesian. rewrite forallb_forall. split.
  - intros H i Hi. specialize (H i ltac:(apply in_seq; lia)). apply Rleb_true in H. exact H.
  - intros H i Hi. apply in_seq in Hi. apply Rleb_true. apply (H i). lia.
Qed.
Print Assumptions C39_is_cartesian.
Theorem C39_cartesian_axes : forall dim s, (1 <= dim <= 3)%nat -> length (r_basis s) = dim -> orthonormal (r_basis s) -> is_cartesian dim s = true ->
  forall i, (i < dim)%nat -> let e := nth i (r_basis s) [] in let a := map (fun j => if Nat.eqb i j then 1 else 0) (seq 0 dim) in
    inner (map (fun j => nth j e 0 - nth j a 0) (seq 0 dim)) (map (fun j => nth j e 0 - nth j a 0) (seq 0 dim)) <= 2 * default_tol.
Proof.
  intros dim s Hd Hl Ho Hc i Hi e a. rewrite C39_is_cartesian in Hc. specialize (Hc i Hi). destruct (Ho i i ltac:(lia) ltac:(lia)) as [Le In]. rewrite Nat.eqb_refl in In. fold e in Le, In, Hc. rewrite Hl in Le.
  assert (E : inner (map (fun j => nth j e 0 - nth j a 0) (seq 0 dim)) (map (fun j => nth j e 0 - nth j a 0) (seq 0 dim)) = inner e e + 1 - 2 * nth i e 0).
  { clearbody e. unfold a. assert (D : (dim = 1 \/ dim = 2 \/ dim = 3)%nat) by lia.
    destruct D as [-> | [-> | ->]]; (destruct e as [|x0 e]; [discriminate|]); try (destruct e as [|x1 e]; [discriminate|]); try (destruct e as [|x2 e]; [discriminate|]); (destruct e; [|discriminate]);
      destruct i as [|[|[|i]]]; try lia; unfold inner; cbn; ring. }
  rewrite E, In. unfold Rabs in Hc. destruct (Rcase_abs _) in Hc; lra.
Qed.
Print Assumptions C39_cartesian_axes.
Example C39_nonvacuous : vec_norm (cross [1; 1; 0] [0; 1; 0]) <> 0.
Proof. unfold cross, vx. cbn [nth]. rewrite norm3_eq. replace (_ + _) with 1 by ring. rewrite sqrt_1. lra. Qed.

(** C77 *)
Theorem C77_scale_map : forall dim origin s p, (dim = 2 \/ dim = 3)%nat -> length p = dim -> length origin = dim ->
  transform_point dim (coefs_scale dim origin s) p = vadd origin (vscale s p).
Proof. exact coefs_scale_lemma. Qed.
Print Assumptions C77_scale_map.
Theorem C77_axes_map_2d : forall origin ax sx sy, length origin = 2%nat -> length ax = 2%nat -> 0 < sx -> 0 < sy -> vec_norm ax <> 0 ->
  exists cf e0 e1, coefs_axes2 origin ax sx sy = Ret cf /\ orthonormal [e0; e1] /\ det2 e0 e1 = 1 /\ same_direction e0 ax /\
    aff_det 2 cf = sx * sy /\
    forall a b, transform_point 2 cf [a; b] = vadd origin (vadd (vscale (a * sx) e0) (vscale (b * sy) e1)).
Proof. exact coefs_axes2_lemma. Qed.
Print Assumptions C77_axes_map_2d.
Theorem C77_axes_map_3d : forall origin ax ay sx sy sz, length origin = 3%nat -> length ax = 3%nat -> length ay = 3%nat ->
  0 < sx -> 0 < sy -> 0 < sz -> vec_norm (cross ax ay) <> 0 ->
  exists cf e0 e1 e2, coefs_axes3 origin ax ay sx sy sz = Ret cf /\ orthonormal [e0; e1; e2] /\ det3 e0 e1 e2 = 1 /\ same_direction e0 ax /\
    0 < inner e1 ay /\ inner e2 ay = 0 /\ aff_det 3 cf = sx * sy * sz /\
    forall a b c, transform_point 3 cf [a; b; c] = vadd origin (vadd (vscale (a * sx) e0) (vadd (vscale (b * sy) e1) (vscale (c * sz) e2))).
Proof. exact coefs_axes3_lemma. Qed.
Print Assumptions C77_axes_map_3d.
