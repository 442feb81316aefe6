(** Theorems for the Bezier versions of the primitives (C65). *)
From Coq Require Import Reals List Lia Lra Arith ZArith.
From Verif Require Import M_Bzr S_Poly S_Affine L_Real L_Point L_Affine L_Poly L_Funcs L_FuncsSign L_Bzr.
Import ListNotations.
Local Close Scope Z_scope. Local Close Scope nat_scope. Local Open Scope R_scope.

(** The two constructors succeed for the same arguments, and the two functions have the same values at every point. *)
Definition same_function (dim : nat) (plain : outcome func) (bzr : outcome M_Poly.poly) : Prop :=
  (plain = Abort /\ bzr = Abort) \/ exists f q, plain = Ret f /\ bzr = Ret q /\ forall x, length x = dim -> bezier_eval q x = fval f x.

Lemma same_of dim c b (f : func) (p : outcome M_Poly.poly) : (b = true -> exists q, p = Ret q /\ forall x, length x = dim -> bezier_eval q x = fval f x) -> c = b -> same_function dim (assert_ c (Ret f)) (assert_ b p).
Proof. intros H ->. destruct b; [|left; split; reflexivity]. right. destruct (H eq_refl) as (q & -> & Hq). exists f, q. split; [reflexivity|]. split; [reflexivity|exact Hq]. Qed.
Ltac bz o c := let q := fresh "q" in let E := fresh "E" in let V := fresh "V" in let Hq := fresh "Hq" in
  destruct (bzr_exp o c ltac:(discriminate) ltac:(repeat constructor; lia) ltac:(reflexivity)) as (q & E & V & Hq); let p := fresh "p" in let Hp := fresh "Hp" in exists q; split; [exact E|]; intros p Hp; rewrite Hq by exact Hp; clear E Hq.

Theorem C65_sphere : forall dim r c, (dim = 2 \/ dim = 3)%nat -> length c = dim -> same_function dim (sphere dim r c) (sphere_bzr dim r c).
Proof.
  intros dim r c [-> | ->] Hc; apply same_of; try reflexivity; intros _.
  - dest2. bz (tp_const 2 3) (sphere_monomials 2 r [x; y]). dest2. rewrite sphere2_exp. fn_red. ring.
  - dest3. bz (tp_const 3 3) (sphere_monomials 3 r [x; y; z]). dest3. rewrite sphere3_exp. fn_red. ring.
Qed.
Print Assumptions C65_sphere.
Theorem C65_annulus : forall ri ro c, length c = 2%nat -> same_function 2 (annulus ri ro c) (annulus_bzr ri ro c).
Proof.
  intros ri ro c Hc; apply same_of; try reflexivity; intros _. dest2. bz (tp_const 2 5) (annulus_monomials ri ro [x; y]). dest2. rewrite annulus_exp. fn_red. ring.
Qed.
Print Assumptions C65_annulus.
Theorem C65_ellipsoid : forall dim sa sys, (dim = 2 \/ dim = 3)%nat -> length sa = dim -> length (r_origin sys) = dim -> length (r_basis sys) = dim ->
  Forall (fun e => length e = dim) (r_basis sys) -> same_function dim (ellipsoid dim sa sys) (ellipsoid_bzr dim sa sys).
Proof.
  intros dim sa [o b] Hd H1 H2 H3 H4. cbn [r_origin r_basis] in *. apply same_of; [|reflexivity]. intros HB. rewrite forallb_forall in HB.
  assert (HP : forall d, (d < dim)%nat -> vx sa d <> 0) by (intros d Hd'; specialize (HB d ltac:(apply in_seq; lia)); rewrite Rltb_true in HB; lra). clear HB.
  destruct Hd as [-> | ->].
  - destruct b as [|e [|f [|]]]; try discriminate. inversion_clear H4. inversion_clear H0. clear H5. assert (P0 := HP 0%nat ltac:(lia)). assert (P1 := HP 1%nat ltac:(lia)).
    destruct (bzr_exp (tp_const 2 3) (ellipsoid_monomials 2 sa (mk_ref o [e; f]))) as (q & E & V & Hq); [discriminate|repeat constructor; lia| |].
    { unfold ellipsoid_monomials. cbn [seq fold_left]. rewrite !add_square_length. reflexivity. }
    exists q. split; [exact E|]. intros p Hp. rewrite Hq by exact Hp. clear HP E Hq. dest2. unfold ellipsoid_monomials. cbn [seq fold_left r_basis r_origin nth].
    rewrite !add_square2 by (rewrite ?add_square_length; reflexivity).
    replace (expansion monomial _ _) with (-1) by (expand; ring). revert P0 P1. unfold vx. cbn [nth]. intros P0 P1. fn_red. field. split; assumption.
  - destruct b as [|e [|f [|g [|]]]]; try discriminate. inversion_clear H4. inversion_clear H0. inversion_clear H5. clear H6.
    assert (P0 := HP 0%nat ltac:(lia)). assert (P1 := HP 1%nat ltac:(lia)). assert (P2 := HP 2%nat ltac:(lia)).
    destruct (bzr_exp (tp_const 3 3) (ellipsoid_monomials 3 sa (mk_ref o [e; f; g]))) as (q & E & V & Hq); [discriminate|repeat constructor; lia| |].
    { unfold ellipsoid_monomials. cbn [seq fold_left]. rewrite !add_square_length. reflexivity. }
    exists q. split; [exact E|]. intros p Hp. rewrite Hq by exact Hp. clear HP E Hq. dest3. unfold ellipsoid_monomials. cbn [seq fold_left r_basis r_origin nth].
    rewrite !add_square3 by (rewrite ?add_square_length; reflexivity).
    replace (expansion monomial _ _) with (-1) by (expand; ring). revert P0 P1 P2. unfold vx. cbn [nth]. intros P0 P1 P2. fn_red. field. repeat split; assumption.
Qed.
Print Assumptions C65_ellipsoid.
Theorem C65_constant : forall dim v, (dim = 2 \/ dim = 3)%nat -> same_function dim (Ret (M_Funcs.constant dim v)) (constant_bzr dim v).
Proof.
  intros dim v [-> | ->]; right; eexists; eexists; (split; [reflexivity|]); (split; [reflexivity|]); intros p Hp; [dest2|dest3]; reflexivity.
Qed.
Print Assumptions C65_constant.
(** The cylinder and the torus agree for axes longer than the tolerance. *)
Theorem C65_cylinder_partial : forall r o a, length o = 3%nat -> length a = 3%nat -> default_tol < vec_norm a -> same_function 3 (cylinder r o a) (cylinder_bzr r o a).
Proof.
  intros r o a Ho Ha Ht. apply same_of; [|reflexivity]. intros _. destruct (ortho3_lemma a Ha) as [_ H]. destruct (H Ht) as (e0 & e1 & e2 & E & [ON _] & SD). clear H.
  unfold ref_axis. rewrite E. cbn [bind r_basis].
  destruct (ON 0%nat 0%nat ltac:(simpl; lia) ltac:(simpl; lia)) as [L0 _]. destruct (ON 1%nat 1%nat ltac:(simpl; lia) ltac:(simpl; lia)) as [L1 _]. destruct (ON 2%nat 2%nat ltac:(simpl; lia) ltac:(simpl; lia)) as [L2 U2]. cbn [nth length Nat.eqb] in *.
  assert (E2 : e2 = normalize_axis a) by (apply same_unit; try assumption; rewrite <- U2; unfold inner; rewrite L2; cbn [map seq fold_right]; ring).
  destruct (bzr_exp (tp_const 3 3) (cylinder_monomials r o [e0; e1; e2])) as (q & Eq & V & Hq); [discriminate|repeat constructor; lia| |].
  { unfold cylinder_monomials. cbn [seq fold_left]. rewrite !add_square_length. reflexivity. }
  exists q. split; [exact Eq|]. intros p Hp. rewrite Hq by exact Hp. clear Eq Hq E. rewrite <- E2. clear E2 SD U2 Ha Ht. dest3. unfold cylinder_monomials. cbn [seq fold_left nth].
  rewrite !add_square3 by (rewrite ?add_square_length; reflexivity).
  replace (expansion monomial _ _) with (- r * r) by (expand; ring).
  fn_red.
  match type of ON with orthonormal [[?a0; ?a1; ?a2]; [?b0; ?b1; ?b2]; [?c0; ?c1; ?c2]] =>
    match goal with |- context [fold_left] => idtac | |- _ = 0 + (?p0 - ?q0) * _ + (?p1 - ?q1) * _ + (?p2 - ?q2) * _ - _ - _ => pose proof (pyth3 _ _ _ (p0 - q0) (p1 - q1) (p2 - q2) ON) as PP end end.
  cbn [nth] in PP. lra.
Qed.
Print Assumptions C65_cylinder_partial.
Theorem C65_torus_partial : forall R0 r0 c a, length c = 3%nat -> length a = 3%nat -> default_tol < vec_norm a -> same_function 3 (torus R0 r0 c a) (torus_bzr R0 r0 c a).
Proof.
  intros R0 r0 c a Hc Ha Ht. apply same_of; [|reflexivity]. intros _. pose proof default_tol_pos as T.
  assert (N : vec_norm a <> 0) by lra.
  assert (E : normalize_axis a = vscale (/ vec_norm a) a).
  { unfold normalize_axis. replace (is_zero default_tol (vec_norm a)) with false; [reflexivity|]. symmetry. unfold is_zero, tol_equal. apply Rleb_false. rewrite ?Rminus_0_r, Rabs_right by lra. exact Ht. }
  unfold div_by. replace (Reqb (vec_norm a) 0) with false by (symmetry; apply Reqb_false; exact N). cbn [bind]. rewrite <- E.
  pose proof (norm_axis_len a) as L. rewrite Ha in L. revert L. generalize (normalize_axis a). intros u L. clear E N T Ht Ha a. dest3.
  match goal with |- context [torus_monomials _ _ ?k ?l] => bz (tp_const 3 5) (torus_monomials R0 r0 k l) end. dest3. rewrite torus_exp. fn_red. ring.
Qed.
Print Assumptions C65_torus_partial.
(** The plane agrees only up to the length of the normal. *)
Theorem C65_plane_partial : forall dim o n, (dim = 2 \/ dim = 3)%nat -> length o = dim -> length n = dim -> vec_norm n <> 0 ->
  exists q, plane_bzr dim o n = Ret q /\ forall x, length x = dim -> bezier_eval q x = fval (plane dim o n) x / vec_norm n.
Proof.
  intros dim o n Hd Ho Hn N. unfold plane_bzr, div_by. replace (Reqb (vec_norm n) 0) with false by (symmetry; apply Reqb_false; exact N). cbn [bind].
  destruct Hd as [-> | ->].
  - dest2. match type of N with ?t <> 0 => generalize dependent t end. intros k N. unfold vscale at 1. cbn [map]. match goal with |- context [plane_monomials 2 ?k ?l] => bz (tp_const 2 2) (plane_monomials 2 k l) end. dest2. rewrite plane2_exp. unfold plane. fn_red. field. exact N.
  - dest3. match type of N with ?t <> 0 => generalize dependent t end. intros k N. unfold vscale at 1. cbn [map]. match goal with |- context [plane_monomials 3 ?k ?l] => bz (tp_const 3 2) (plane_monomials 3 k l) end. dest3. rewrite plane3_exp. unfold plane. fn_red. field. exact N.
Qed.
Print Assumptions C65_plane_partial.
(** C65 is false for planes with a normal that is not a unit vector. *)
Theorem C65_plane_refuted : forall dim o n x, (dim = 2 \/ dim = 3)%nat -> length o = dim -> length n = dim -> length x = dim -> vec_norm n <> 0 -> vec_norm n <> 1 ->
  fval (plane dim o n) x <> 0 -> exists q, plane_bzr dim o n = Ret q /\ bezier_eval q x <> fval (plane dim o n) x.
Proof.
  intros dim o n x Hd Ho Hn Hx N0 N1 Hv. destruct (C65_plane_partial dim o n Hd Ho Hn N0) as (q & E & Hq). exists q. split; [exact E|]. rewrite Hq by exact Hx. intros K.
  apply N1. apply (Rmult_eq_reg_l (fval (plane dim o n) x)); [|exact Hv]. rewrite <- K at 1. field. exact N0.
Qed.
Print Assumptions C65_plane_refuted.
(** and for cylinders and tori with a very short axis: the plain ones keep it as it is. *)
Theorem C65_short_axis_refuted : exists f, cylinder 1 [0; 0; 0] [0; 0; 0] = Ret f /\ cylinder_bzr 1 [0; 0; 0] [0; 0; 0] = Abort.
Proof.
  unfold cylinder, cylinder_bzr. replace (Rltb 0 1) with true by (symmetry; apply Rltb_true; lra). cbn [assert_]. eexists. split; [reflexivity|].
  destruct (ortho3_lemma [0; 0; 0] eq_refl) as [H _]. unfold ref_axis. rewrite H; [reflexivity|]. rewrite norm3_eq. replace (0 * 0 + 0 * 0 + 0 * 0) with 0 by ring. rewrite sqrt_0. pose proof default_tol_pos. lra.
Qed.
Example C65_meets : exists q, torus_bzr 2 1 [0; 0; 0] [0; 0; 1] = Ret q /\ bezier_eval q [2; 0; 0] = -(15).
Proof.
  assert (N : vec_norm [0; 0; 1] = 1) by (rewrite norm3_eq; replace (0 * 0 + 0 * 0 + 1 * 1) with 1 by ring; apply sqrt_1).
  destruct (C65_torus_partial 2 1 [0; 0; 0] [0; 0; 1] eq_refl eq_refl) as [[H _]|(f & q & E1 & E2 & Hq)].
  - rewrite N. unfold default_tol, M_Domain.eps. lra.
  - unfold torus in H. replace (Rltb 0 1) with true in H by (symmetry; apply Rltb_true; lra). replace (Rltb 1 2) with true in H by (symmetry; apply Rltb_true; lra). discriminate.
  - exists q. split; [exact E2|]. rewrite Hq by reflexivity. unfold torus in E1. replace (Rltb 0 1) with true in E1 by (symmetry; apply Rltb_true; lra). replace (Rltb 1 2) with true in E1 by (symmetry; apply Rltb_true; lra).
    injection E1 as <-. cbn [fval]. unfold normalize_axis. rewrite N. replace (is_zero default_tol 1) with false.
    + unfold vscale. cbn [map]. fn_red. field.
    + symmetry. unfold is_zero, tol_equal. apply Rleb_false. rewrite ?Rminus_0_r, Rabs_right by lra. unfold default_tol, M_Domain.eps. lra.
Qed.
