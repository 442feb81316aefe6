(** C65: the Bezier versions of the primitives. *)
From Coq Require Import Reals List Lia Lra Arith ZArith.
From Verif Require Import M_Bzr S_Poly S_Affine L_Real L_Point L_Affine L_Poly L_Poly2 L_Poly3 L_Poly4 L_Poly5 L_Poly6 L_Poly7 L_Poly8 L_Poly9 L_Funcs L_FuncsSign S_Funcs.
Import ListNotations.
Local Close Scope Z_scope. Local Close Scope nat_scope. Local Open Scope R_scope.

Lemma bzr_exp o c : o <> [] -> Forall (fun n => (0 < n)%nat) o -> length c = tp_size o ->
  exists q, bezier_of_mono (mk_poly o c) = Ret q /\ valid_poly q /\ forall x, length x = length o -> bezier_eval q x = expansion monomial (mk_poly o c) x.
Proof.
  intros H1 H2 H3. assert (V : valid_poly (mk_poly o c)) by (split; [exact H1|split; assumption]).
  destruct (bezier_of_mono_ok (mk_poly o c) V) as (q & E & Vq & _ & Hq). exists q. split; [exact E|]. split; [exact Vq|]. intros x Hx. rewrite Hq by exact Hx. apply mono_expansion; [exact V|exact Hx].
Qed.
Ltac expand := cbv -[Rplus Rmult Rminus Ropp Rinv Rdiv pow IZR]; cbn [pow].

Lemma sphere2_exp r a b x y : expansion monomial (mk_poly (tp_const 2 3) (sphere_monomials 2 r [a; b])) [x; y] = (x - a) * (x - a) + (y - b) * (y - b) - r * r.
Proof. expand. ring. Qed.
Lemma sphere3_exp r a b c x y z : expansion monomial (mk_poly (tp_const 3 3) (sphere_monomials 3 r [a; b; c])) [x; y; z] = (x - a) * (x - a) + (y - b) * (y - b) + (z - c) * (z - c) - r * r.
Proof. expand. ring. Qed.
Lemma annulus_exp ri ro a b x y : let d := (x - a) * (x - a) + (y - b) * (y - b) in
  expansion monomial (mk_poly (tp_const 2 5) (annulus_monomials ri ro [a; b])) [x; y] = (d - ri * ri - ro * ro) * d + ri * ri * (ro * ro).
Proof. expand. ring. Qed.
Lemma plane2_exp a b u v x y : expansion monomial (mk_poly (tp_const 2 2) (plane_monomials 2 [a; b] [u; v])) [x; y] = (x - a) * u + (y - b) * v.
Proof. expand. ring. Qed.
Lemma plane3_exp a b c u v w x y z : expansion monomial (mk_poly (tp_const 3 2) (plane_monomials 3 [a; b; c] [u; v; w])) [x; y; z] = (x - a) * u + (y - b) * v + (z - c) * w.
Proof. expand. ring. Qed.
Lemma torus_exp R0 r0 a b c u v w x y z : let d := (x - a) * (x - a) + (y - b) * (y - b) + (z - c) * (z - c) in let p := (x - a) * u + (y - b) * v + (z - c) * w in
  expansion monomial (mk_poly (tp_const 3 5) (torus_monomials R0 r0 [a; b; c] [u; v; w])) [x; y; z] =
  d * d - 2 * (R0 * R0 + r0 * r0) * d + 4 * (R0 * R0) * p * p + (R0 * R0 - r0 * r0) * (R0 * R0 - r0 * r0).
Proof. expand. ring. Qed.
Lemma list9 {A} (c : list A) : length c = 9%nat -> exists a0 a1 a2 a3 a4 a5 a6 a7 a8, c = [a0; a1; a2; a3; a4; a5; a6; a7; a8].
Proof. intros H. do 9 (destruct c as [|? c]; [discriminate|]). destruct c; [|discriminate]. repeat eexists. Qed.
Lemma add_square_length dim vec center coef c : length (add_square dim vec center coef c) = length c.
Proof.
  assert (A : forall o t v c, length (add_coef o t v c) = length c) by (intros; unfold add_coef, add_at; apply set_at_length).
  assert (F : forall {X} (f : list R -> X -> list R) l c, (forall c x, length (f c x) = length c) -> length (fold_left f l c) = length c).
  { intros X f l. induction l as [|x l IH]; intros c0 Hf; [reflexivity|]. cbn [fold_left]. rewrite IH by exact Hf. apply Hf. }
  unfold add_square. rewrite F; [unfold add_at; apply set_at_length|]. intros c0 d. rewrite F; [apply A|]. intros; apply A.
Qed.
Lemma add_square2 u v a b coef c x y : length c = 9%nat ->
  expansion monomial (mk_poly (tp_const 2 3) (add_square 2 [u; v] [a; b] coef c)) [x; y] =
  expansion monomial (mk_poly (tp_const 2 3) c) [x; y] + ((x - a) * u + (y - b) * v) * ((x - a) * u + (y - b) * v) * coef.
Proof. intros H. apply list9 in H as (a0 & a1 & a2 & a3 & a4 & a5 & a6 & a7 & a8 & ->). expand. ring. Qed.
Lemma add_square3 u v w a b d coef c x y z : length c = 27%nat ->
  expansion monomial (mk_poly (tp_const 3 3) (add_square 3 [u; v; w] [a; b; d] coef c)) [x; y; z] =
  expansion monomial (mk_poly (tp_const 3 3) c) [x; y; z] + ((x - a) * u + (y - b) * v + (z - d) * w) * ((x - a) * u + (y - b) * v + (z - d) * w) * coef.
Proof. intros H. do 27 (destruct c as [|? c]; [discriminate|]). destruct c; [|discriminate]. expand. ring. Qed.
Lemma pyth3 e f g d0 d1 d2 : orthonormal [e; f; g] ->
  d0 * d0 + d1 * d1 + d2 * d2 - (d0 * nth 0 g 0 + d1 * nth 1 g 0 + d2 * nth 2 g 0) * (d0 * nth 0 g 0 + d1 * nth 1 g 0 + d2 * nth 2 g 0) =
  (d0 * nth 0 e 0 + d1 * nth 1 e 0 + d2 * nth 2 e 0) * (d0 * nth 0 e 0 + d1 * nth 1 e 0 + d2 * nth 2 e 0) +
  (d0 * nth 0 f 0 + d1 * nth 1 f 0 + d2 * nth 2 f 0) * (d0 * nth 0 f 0 + d1 * nth 1 f 0 + d2 * nth 2 f 0).
Proof.
  intros H. destruct (frame3 e f g [0; 0; 0] d0 d1 d2 H) as (u & Lu & E).
  destruct (H 0%nat 0%nat ltac:(simpl; lia) ltac:(simpl; lia)) as [Le E00]. destruct (H 1%nat 1%nat ltac:(simpl; lia) ltac:(simpl; lia)) as [Lf E11]. destruct (H 2%nat 2%nat ltac:(simpl; lia) ltac:(simpl; lia)) as [Lg E22].
  destruct (H 0%nat 1%nat ltac:(simpl; lia) ltac:(simpl; lia)) as [_ E01]. destruct (H 0%nat 2%nat ltac:(simpl; lia) ltac:(simpl; lia)) as [_ E02]. destruct (H 1%nat 2%nat ltac:(simpl; lia) ltac:(simpl; lia)) as [_ E12].
  cbn [nth length] in *. destruct (len3 e Le) as (a0 & a1 & a2 & ->). destruct (len3 f Lf) as (b0 & b1 & b2 & ->). destruct (len3 g Lg) as (c0 & c1 & c2 & ->). destruct (len3 u Lu) as (u0 & u1 & u2 & ->).
  unfold inner in *. unfold in_frame in E. cbn [length map seq nth fold_right Nat.eqb] in *. injection E as X0 X1 X2.
  assert (A : d0 * a0 + d1 * a1 + d2 * a2 = u0).
  { rewrite X0, X1, X2. transitivity (u0 * (a0 * a0 + (a1 * a1 + (a2 * a2 + 0))) + u1 * (a0 * b0 + (a1 * b1 + (a2 * b2 + 0))) + u2 * (a0 * c0 + (a1 * c1 + (a2 * c2 + 0)))); [ring|rewrite E00, E01, E02; ring]. }
  assert (B : d0 * b0 + d1 * b1 + d2 * b2 = u1).
  { rewrite X0, X1, X2. transitivity (u0 * (a0 * b0 + (a1 * b1 + (a2 * b2 + 0))) + u1 * (b0 * b0 + (b1 * b1 + (b2 * b2 + 0))) + u2 * (b0 * c0 + (b1 * c1 + (b2 * c2 + 0)))); [ring|rewrite E01, E11, E12; ring]. }
  assert (Cc : d0 * c0 + d1 * c1 + d2 * c2 = u2).
  { rewrite X0, X1, X2. transitivity (u0 * (a0 * c0 + (a1 * c1 + (a2 * c2 + 0))) + u1 * (b0 * c0 + (b1 * c1 + (b2 * c2 + 0))) + u2 * (c0 * c0 + (c1 * c1 + (c2 * c2 + 0)))); [ring|rewrite E02, E12, E22; ring]. }
  rewrite A, B, Cc.
  assert (N : d0 * d0 + d1 * d1 + d2 * d2 = u0 * u0 + u1 * u1 + u2 * u2).
  { transitivity (d0 * (0 + (u0 * a0 + (u1 * b0 + (u2 * c0 + 0)))) + d1 * (0 + (u0 * a1 + (u1 * b1 + (u2 * c1 + 0)))) + d2 * (0 + (u0 * a2 + (u1 * b2 + (u2 * c2 + 0))))); [rewrite <- X0, <- X1, <- X2; reflexivity|].
    transitivity (u0 * (d0 * a0 + d1 * a1 + d2 * a2) + u1 * (d0 * b0 + d1 * b1 + d2 * b2) + u2 * (d0 * c0 + d1 * c1 + d2 * c2)); [ring|rewrite A, B, Cc; ring]. }
  rewrite N. ring.
Qed.
Lemma same_unit a e : length a = 3%nat -> default_tol < vec_norm a -> same_direction e a -> nth 0 e 0 * nth 0 e 0 + nth 1 e 0 * nth 1 e 0 + nth 2 e 0 * nth 2 e 0 = 1 -> e = normalize_axis a.
Proof.
  intros Ha Ht (k & Hk & ->) Hu. destruct (norm_axis_unit a Ha Ht) as (n & u & v & w & _ & Hn & -> & U & ->). cbn [map nth] in *.
  assert (K : (k * n) * (k * n) = 1).
  { transitivity (k * (n * u) * (k * (n * u)) + k * (n * v) * (k * (n * v)) + k * (n * w) * (k * (n * w))); [|exact Hu].
    transitivity ((k * n) * (k * n) * (u * u + v * v + w * w)); [rewrite U; ring|ring]. }
  assert (0 < k * n) by (apply Rmult_lt_0_compat; assumption). assert (k * n = 1) by nra.
  f_equal; [|f_equal; [|f_equal]]; match goal with |- _ * (_ * ?t) = _ => transitivity ((k * n) * t); [ring|rewrite H0; ring] end.
Qed.
