(** C156: normals and Nanson's formula on the unfitted boundary. C157: the measure of the unfitted boundary. *)
From Coq Require Import Reals Lra Psatz.
From Coquelicot Require Import Coquelicot.
From Verif Require Import M_PyBase M_PyForms M_PyBoundary S_PyBoundary.
Local Open Scope R_scope.

Lemma sqrt_scaled : forall s x y, s ^ 2 * x = y -> 0 <= x -> sqrt y = Rabs s * sqrt x.
Proof. intros s x y <- H. rewrite sqrt_mult; [|apply pow2_ge_0|exact H]. f_equal. rewrite <- (sqrt_Rsqr_abs s). f_equal. unfold Rsqr. ring. Qed.
Lemma norm2 x y : norm [x; y] = len2 x y.
Proof. unfold norm, len2, inner. cbn. f_equal. ring. Qed.
Lemma norm3 x y z : norm [x; y; z] = len3 x y z.
Proof. unfold norm, len3, inner. cbn. f_equal. ring. Qed.
(** In the plane: a vector orthogonal to a unit vector is a multiple of the rotated one. *)
Lemma tangent2 n0 n1 t0 t1 : n0 ^ 2 + n1 ^ 2 = 1 -> n0 * t0 + n1 * t1 = 0 -> exists s, t0 = - s * n1 /\ t1 = s * n0.
Proof.
  intros U O. exists (n0 * t1 - n1 * t0). split.
  - replace t0 with (t0 * (n0 ^ 2 + n1 ^ 2)) at 1 by (rewrite U; ring). replace (t0 * (n0 ^ 2 + n1 ^ 2)) with (n0 * (n0 * t0 + n1 * t1) + (n1 ^ 2 * t0 - n0 * n1 * t1)) by ring. rewrite O. ring.
  - replace t1 with (t1 * (n0 ^ 2 + n1 ^ 2)) at 1 by (rewrite U; ring). replace (t1 * (n0 ^ 2 + n1 ^ 2)) with (n1 * (n0 * t0 + n1 * t1) + (n0 ^ 2 * t1 - n0 * n1 * t0)) by ring. rewrite O. ring.
Qed.
(** C156, cells in the plane: DF the Jacobian at a point of the boundary, N the unit parametric normal, t a tangent. The factor of dx times the norm
    of the mapped normal is the ratio of lengths; the mapped normal is normal to the mapped boundary, on the same side. *)
Theorem C156_nanson_2d : forall a b c d n0 n1 t0 t1,
  let DF := [[a; b]; [c; d]] in let N := [n0; n1] in
  a * d - b * c <> 0 -> n0 ^ 2 + n1 ^ 2 = 1 -> n0 * t0 + n1 * t1 = 0 ->
  exists m0 m1 u0 u1 sc, mapped_normal DF N false = Ret [m0; m1] /\ scale DF = Ret sc /\ mapped_normal DF N true = Ret [u0; u1]
    /\ len2 (a * t0 + b * t1) (c * t0 + d * t1) = sc * norm [m0; m1] * len2 t0 t1
    /\ len2 u0 u1 = 1 /\ u0 * (a * t0 + b * t1) + u1 * (c * t0 + d * t1) = 0
    /\ forall v0 v1, u0 * (a * v0 + b * v1) + u1 * (c * v0 + d * v1) = (n0 * v0 + n1 * v1) / norm [m0; m1] /\ 0 < norm [m0; m1].
Proof.
  intros a b c d n0 n1 t0 t1 DF N HD U O. set (D := a * d - b * c) in *.
  set (m0 := d / D * n0 + - c / D * n1). set (m1 := - b / D * n0 + a / D * n1).
  assert (EN : norm [m0; m1] = len2 m0 m1) by apply norm2.
  assert (N0 : a * m0 + c * m1 = n0) by (unfold m0, m1, D; field; exact HD). assert (N1 : b * m0 + d * m1 = n1) by (unfold m0, m1, D; field; exact HD).
  assert (Q : 0 < m0 ^ 2 + m1 ^ 2).
  { destruct (Req_dec m0 0) as [Z0|Z0]; [destruct (Req_dec m1 0) as [Z1|Z1]|].
    - rewrite Z0, Z1 in N0, N1. nra.
    - apply Rplus_le_lt_0_compat; [apply pow2_ge_0|]. apply pow2_gt_0; auto.
    - apply Rplus_lt_le_0_compat; [apply pow2_gt_0; auto|apply pow2_ge_0]. }
  assert (L : 0 < len2 m0 m1) by (apply sqrt_lt_R0; exact Q).
  assert (EM : mapped_normal DF N false = Ret [m0; m1]).
  { unfold mapped_normal, DF, N, m0, m1, D. cbn. unfold inner. cbn. do 3 f_equal; [ring|]. f_equal. ring. }
  exists m0, m1, (m0 / len2 m0 m1), (m1 / len2 m0 m1), (Rabs D).
  split; [exact EM|]. split; [reflexivity|]. split.
  { unfold mapped_normal in *. destruct (if negb _ then _ else _) as [n| | |]; cbn [bind] in *; try discriminate. injection EM as ->. rewrite EN. reflexivity. }
  assert (SQ : len2 m0 m1 ^ 2 = m0 ^ 2 + m1 ^ 2) by (unfold len2; rewrite pow2_sqrt; lra).
  split; [|split; [|split]].
  - rewrite EN. destruct (tangent2 _ _ _ _ U O) as (s & -> & ->). unfold len2.
    rewrite (sqrt_scaled (D * s) (m0 ^ 2 + m1 ^ 2)); [|unfold m0, m1, D; field; exact HD|lra].
    replace ((- s * n1) ^ 2 + (s * n0) ^ 2) with (s ^ 2 * (n0 ^ 2 + n1 ^ 2)) by ring. rewrite U. rewrite (sqrt_scaled s 1 _ eq_refl) by lra. rewrite sqrt_1, Rabs_mult. ring.
  - unfold len2 at 1. rewrite <- sqrt_1. f_equal. unfold Rdiv. rewrite !Rpow_mult_distr, <- Rmult_plus_distr_r, <- SQ. field. lra.
  - replace (m0 / len2 m0 m1 * (a * t0 + b * t1) + m1 / len2 m0 m1 * (c * t0 + d * t1)) with (((a * m0 + c * m1) * t0 + (b * m0 + d * m1) * t1) / len2 m0 m1) by (field; lra).
    rewrite N0, N1, O. field. lra.
  - intros v0 v1. rewrite EN. split; [|exact L].
    replace (m0 / len2 m0 m1 * (a * v0 + b * v1) + m1 / len2 m0 m1 * (c * v0 + d * v1)) with (((a * m0 + c * m1) * v0 + (b * m0 + d * m1) * v1) / len2 m0 m1) by (field; lra).
    rewrite N0, N1. reflexivity.
Qed.
(** In space: the product of two vectors orthogonal to a unit vector is a multiple of it. *)
Lemma normal3 n0 n1 n2 u0 u1 u2 v0 v1 v2 : n0 ^ 2 + n1 ^ 2 + n2 ^ 2 = 1 -> n0 * u0 + n1 * u1 + n2 * u2 = 0 -> n0 * v0 + n1 * v1 + n2 * v2 = 0 ->
  exists s, u1 * v2 - u2 * v1 = s * n0 /\ u2 * v0 - u0 * v2 = s * n1 /\ u0 * v1 - u1 * v0 = s * n2.
Proof.
  intros U A B. exists (n0 * (u1 * v2 - u2 * v1) + n1 * (u2 * v0 - u0 * v2) + n2 * (u0 * v1 - u1 * v0)).
  split; [|split].
  - replace (u1 * v2 - u2 * v1) with ((u1 * v2 - u2 * v1) * (n0 ^ 2 + n1 ^ 2 + n2 ^ 2)) at 1 by (rewrite U; ring).
    replace ((u1 * v2 - u2 * v1) * (n0 ^ 2 + n1 ^ 2 + n2 ^ 2)) with ((n0 * (u1 * v2 - u2 * v1) + n1 * (u2 * v0 - u0 * v2) + n2 * (u0 * v1 - u1 * v0)) * n0
      + (n0 * v0 + n1 * v1 + n2 * v2) * (n2 * u1 - n1 * u2) - (n0 * u0 + n1 * u1 + n2 * u2) * (n2 * v1 - n1 * v2)) by ring. rewrite A, B. ring.
  - replace (u2 * v0 - u0 * v2) with ((u2 * v0 - u0 * v2) * (n0 ^ 2 + n1 ^ 2 + n2 ^ 2)) at 1 by (rewrite U; ring).
    replace ((u2 * v0 - u0 * v2) * (n0 ^ 2 + n1 ^ 2 + n2 ^ 2)) with ((n0 * (u1 * v2 - u2 * v1) + n1 * (u2 * v0 - u0 * v2) + n2 * (u0 * v1 - u1 * v0)) * n1
      + (n0 * v0 + n1 * v1 + n2 * v2) * (n0 * u2 - n2 * u0) - (n0 * u0 + n1 * u1 + n2 * u2) * (n0 * v2 - n2 * v0)) by ring. rewrite A, B. ring.
  - replace (u0 * v1 - u1 * v0) with ((u0 * v1 - u1 * v0) * (n0 ^ 2 + n1 ^ 2 + n2 ^ 2)) at 1 by (rewrite U; ring).
    replace ((u0 * v1 - u1 * v0) * (n0 ^ 2 + n1 ^ 2 + n2 ^ 2)) with ((n0 * (u1 * v2 - u2 * v1) + n1 * (u2 * v0 - u0 * v2) + n2 * (u0 * v1 - u1 * v0)) * n2
      + (n0 * v0 + n1 * v1 + n2 * v2) * (n1 * u0 - n0 * u1) - (n0 * u0 + n1 * u1 + n2 * u2) * (n1 * v0 - n0 * v1)) by ring. rewrite A, B. ring.
Qed.
Lemma pos3 x y z : x <> 0 \/ y <> 0 \/ z <> 0 -> 0 < x ^ 2 + y ^ 2 + z ^ 2.
Proof. pose proof (pow2_ge_0 x). pose proof (pow2_ge_0 y). pose proof (pow2_ge_0 z). intros [A|[A|A]]; apply pow2_gt_0 in A; lra. Qed.
(** Cells in space, surfaces: u and v are two tangents of the boundary. *)
Theorem C156_nanson_3d : forall a b c d e f g h i n0 n1 n2 u0 u1 u2 v0 v1 v2,
  let DF := [[a; b; c]; [d; e; f]; [g; h; i]] in let N := [n0; n1; n2] in
  a * (e * i - f * h) + b * (f * g - d * i) + c * (d * h - e * g) <> 0 ->
  n0 ^ 2 + n1 ^ 2 + n2 ^ 2 = 1 -> n0 * u0 + n1 * u1 + n2 * u2 = 0 -> n0 * v0 + n1 * v1 + n2 * v2 = 0 ->
  exists m0 m1 m2 k0 k1 k2 sc, mapped_normal DF N false = Ret [m0; m1; m2] /\ scale DF = Ret sc /\ mapped_normal DF N true = Ret [k0; k1; k2]
    /\ area3 (a * u0 + b * u1 + c * u2) (d * u0 + e * u1 + f * u2) (g * u0 + h * u1 + i * u2)
             (a * v0 + b * v1 + c * v2) (d * v0 + e * v1 + f * v2) (g * v0 + h * v1 + i * v2) = sc * norm [m0; m1; m2] * area3 u0 u1 u2 v0 v1 v2
    /\ len3 k0 k1 k2 = 1
    /\ (forall w0 w1 w2, k0 * (a * w0 + b * w1 + c * w2) + k1 * (d * w0 + e * w1 + f * w2) + k2 * (g * w0 + h * w1 + i * w2)
          = (n0 * w0 + n1 * w1 + n2 * w2) / norm [m0; m1; m2]) /\ 0 < norm [m0; m1; m2].
Proof.
  intros a b c d e f g h i n0 n1 n2 u0 u1 u2 v0 v1 v2 DF N HD U A B. set (D := a * (e * i - f * h) + b * (f * g - d * i) + c * (d * h - e * g)) in *.
  set (m0 := (e * i - f * h) / D * n0 + (f * g - d * i) / D * n1 + (d * h - e * g) / D * n2).
  set (m1 := (c * h - b * i) / D * n0 + (a * i - c * g) / D * n1 + (b * g - a * h) / D * n2).
  set (m2 := (b * f - c * e) / D * n0 + (c * d - a * f) / D * n1 + (a * e - b * d) / D * n2).
  assert (EN : norm [m0; m1; m2] = len3 m0 m1 m2) by apply norm3.
  assert (N0 : a * m0 + d * m1 + g * m2 = n0) by (unfold m0, m1, m2, D; field; exact HD).
  assert (N1 : b * m0 + e * m1 + h * m2 = n1) by (unfold m0, m1, m2, D; field; exact HD).
  assert (N2 : c * m0 + f * m1 + i * m2 = n2) by (unfold m0, m1, m2, D; field; exact HD).
  assert (Q : 0 < m0 ^ 2 + m1 ^ 2 + m2 ^ 2).
  { apply pos3. destruct (Req_dec m0 0) as [Z0|Z0]; [destruct (Req_dec m1 0) as [Z1|Z1]; [destruct (Req_dec m2 0) as [Z2|Z2]|]|]; auto.
    rewrite Z0, Z1, Z2 in N0, N1, N2. nra. }
  assert (L : 0 < len3 m0 m1 m2) by (apply sqrt_lt_R0; exact Q).
  assert (EM : mapped_normal DF N false = Ret [m0; m1; m2]).
  { unfold mapped_normal, DF, N, m0, m1, m2, D. cbn. unfold inner. cbn. do 2 f_equal; [ring|]. f_equal; [ring|]. f_equal. ring. }
  exists m0, m1, m2, (m0 / len3 m0 m1 m2), (m1 / len3 m0 m1 m2), (m2 / len3 m0 m1 m2), (Rabs D).
  split; [exact EM|]. split; [reflexivity|]. split.
  { unfold mapped_normal in *. destruct (if negb _ then _ else _) as [n| | |]; cbn [bind] in *; try discriminate. injection EM as ->. rewrite EN. reflexivity. }
  assert (SQ : len3 m0 m1 m2 ^ 2 = m0 ^ 2 + m1 ^ 2 + m2 ^ 2) by (unfold len3; rewrite pow2_sqrt; lra).
  split; [|split; [|split]].
  - rewrite EN. destruct (normal3 _ _ _ _ _ _ _ _ _ U A B) as (s & X & Y & Z_). unfold area3. rewrite X, Y, Z_. unfold len3.
    rewrite (sqrt_scaled (D * s) (m0 ^ 2 + m1 ^ 2 + m2 ^ 2)); [| |lra].
    + replace ((s * n0) ^ 2 + (s * n1) ^ 2 + (s * n2) ^ 2) with (s ^ 2 * (n0 ^ 2 + n1 ^ 2 + n2 ^ 2)) by ring. rewrite U. rewrite (sqrt_scaled s 1 _ eq_refl) by lra. rewrite sqrt_1, Rabs_mult. ring.
    + assert (C0 : (d * u0 + e * u1 + f * u2) * (g * v0 + h * v1 + i * v2) - (g * u0 + h * u1 + i * u2) * (d * v0 + e * v1 + f * v2) = D * s * m0).
      { transitivity ((e * i - f * h) * (u1 * v2 - u2 * v1) + (f * g - d * i) * (u2 * v0 - u0 * v2) + (d * h - e * g) * (u0 * v1 - u1 * v0)); [ring|]. rewrite X, Y, Z_. unfold m0, D. field. exact HD. }
      assert (C1 : (g * u0 + h * u1 + i * u2) * (a * v0 + b * v1 + c * v2) - (a * u0 + b * u1 + c * u2) * (g * v0 + h * v1 + i * v2) = D * s * m1).
      { transitivity ((c * h - b * i) * (u1 * v2 - u2 * v1) + (a * i - c * g) * (u2 * v0 - u0 * v2) + (b * g - a * h) * (u0 * v1 - u1 * v0)); [ring|]. rewrite X, Y, Z_. unfold m1, D. field. exact HD. }
      assert (C2 : (a * u0 + b * u1 + c * u2) * (d * v0 + e * v1 + f * v2) - (d * u0 + e * u1 + f * u2) * (a * v0 + b * v1 + c * v2) = D * s * m2).
      { transitivity ((b * f - c * e) * (u1 * v2 - u2 * v1) + (c * d - a * f) * (u2 * v0 - u0 * v2) + (a * e - b * d) * (u0 * v1 - u1 * v0)); [ring|]. rewrite X, Y, Z_. unfold m2, D. field. exact HD. }
      rewrite C0, C1, C2. ring.
  - unfold len3 at 1. rewrite <- sqrt_1. f_equal. unfold Rdiv. rewrite !Rpow_mult_distr, <- !Rmult_plus_distr_r, <- SQ. field. lra.
  - intros w0 w1 w2. rewrite EN. transitivity (((a * m0 + d * m1 + g * m2) * w0 + (b * m0 + e * m1 + h * m2) * w1 + (c * m0 + f * m1 + i * m2) * w2) / len3 m0 m1 m2); [field; lra|].
    rewrite N0, N1, N2. reflexivity.
  - rewrite EN. exact L.
Qed.
(** Two-dimensional cells in space, curves: N and the tangent t are in the plane of the reference cell. The mapped normal is tangent to the mapped
    surface and normal to the mapped curve. *)
Theorem C156_nanson_manifold : forall a b c d e f n0 n1 t0 t1,
  let DF := [[a; b]; [c; d]; [e; f]] in let N := [n0; n1] in
  area3 a c e b d f <> 0 -> n0 ^ 2 + n1 ^ 2 = 1 -> n0 * t0 + n1 * t1 = 0 ->
  exists m0 m1 m2 k0 k1 k2 sc, mapped_normal DF N false = Ret [m0; m1; m2] /\ scale DF = Ret sc /\ mapped_normal DF N true = Ret [k0; k1; k2]
    /\ len3 (a * t0 + b * t1) (c * t0 + d * t1) (e * t0 + f * t1) = sc * norm [m0; m1; m2] * len2 t0 t1
    /\ len3 k0 k1 k2 = 1
    /\ (exists p q, k0 = a * p + b * q /\ k1 = c * p + d * q /\ k2 = e * p + f * q)
    /\ (forall w0 w1, k0 * (a * w0 + b * w1) + k1 * (c * w0 + d * w1) + k2 * (e * w0 + f * w1) = (n0 * w0 + n1 * w1) / norm [m0; m1; m2]) /\ 0 < norm [m0; m1; m2].
Proof.
  intros a b c d e f n0 n1 t0 t1 DF N HA U O.
  set (E_ := a * a + c * c + e * e). set (F_ := a * b + c * d + e * f). set (G_ := b * b + d * d + f * f). set (D := E_ * G_ - F_ * F_).
  assert (HD : (c * f - e * d) ^ 2 + (e * b - a * f) ^ 2 + (a * d - c * b) ^ 2 = D) by (unfold D, E_, F_, G_; ring).
  assert (PD : 0 < D).
  { rewrite <- HD. apply pos3. destruct (Req_dec (c * f - e * d) 0) as [Z0|]; auto. destruct (Req_dec (e * b - a * f) 0) as [Z1|]; auto. destruct (Req_dec (a * d - c * b) 0) as [Z2|]; auto.
    exfalso. apply HA. unfold area3, len3. rewrite Z0, Z1, Z2. replace (0 ^ 2 + 0 ^ 2 + 0 ^ 2) with 0 by ring. apply sqrt_0. }
  assert (DN : D <> 0) by lra.
  set (p := (G_ * n0 - F_ * n1) / D). set (q := (E_ * n1 - F_ * n0) / D).
  set (m0 := a * p + b * q). set (m1 := c * p + d * q). set (m2 := e * p + f * q).
  assert (EN : norm [m0; m1; m2] = len3 m0 m1 m2) by apply norm3.
  assert (P0 : E_ * p + F_ * q = n0) by (unfold p, q; replace n0 with (n0 * D / D) at 3 by (field; exact DN); unfold D; field; exact DN).
  assert (P1 : F_ * p + G_ * q = n1) by (unfold p, q; replace n1 with (n1 * D / D) at 3 by (field; exact DN); unfold D; field; exact DN).
  assert (N0 : a * m0 + c * m1 + e * m2 = n0) by (rewrite <- P0; unfold m0, m1, m2, E_, F_; ring).
  assert (N1 : b * m0 + d * m1 + f * m2 = n1) by (rewrite <- P1; unfold m0, m1, m2, F_, G_; ring).
  assert (Q : 0 < m0 ^ 2 + m1 ^ 2 + m2 ^ 2).
  { apply pos3. destruct (Req_dec m0 0) as [Z0|Z0]; [destruct (Req_dec m1 0) as [Z1|Z1]; [destruct (Req_dec m2 0) as [Z2|Z2]|]|]; auto.
    rewrite Z0, Z1, Z2 in N0, N1. nra. }
  assert (L : 0 < len3 m0 m1 m2) by (apply sqrt_lt_R0; exact Q).
  assert (EM : mapped_normal DF N false = Ret [m0; m1; m2]).
  { unfold mapped_normal, DF, N. cbn. unfold inner. cbn. assert (X : forall x x' y y' z z' : R, x = x' -> y = y' -> z = z' -> Ret [x; y; z] = Ret [x'; y'; z']) by (intros ? ? ? ? ? ? -> -> ->; reflexivity).
    repeat match goal with |- context [_ / ?x] => lazymatch x with D => fail | _ => replace x with D by (unfold D, E_, F_, G_; ring) end end. apply X; unfold m0, m1, m2, p, q, E_, F_, G_; field; exact DN. }
  exists m0, m1, m2, (m0 / len3 m0 m1 m2), (m1 / len3 m0 m1 m2), (m2 / len3 m0 m1 m2), (sqrt D).
  split; [exact EM|]. split; [cbn; unfold inner; cbn; do 2 f_equal; rewrite <- HD; ring|]. split.
  { unfold mapped_normal in *. destruct (if negb _ then _ else _) as [n| | |]; cbn [bind] in *; try discriminate. injection EM as ->. rewrite EN. reflexivity. }
  assert (SQ : len3 m0 m1 m2 ^ 2 = m0 ^ 2 + m1 ^ 2 + m2 ^ 2) by (unfold len3; rewrite pow2_sqrt; lra).
  split; [|split; [|split; [|split]]].
  - rewrite EN. destruct (tangent2 _ _ _ _ U O) as (s & -> & ->). unfold len3, len2.
    replace ((- s * n1) ^ 2 + (s * n0) ^ 2) with (s ^ 2 * (n0 ^ 2 + n1 ^ 2)) by ring. rewrite U. rewrite (sqrt_scaled s 1 _ eq_refl) by lra. rewrite sqrt_1.
    rewrite (sqrt_scaled s (D * (m0 ^ 2 + m1 ^ 2 + m2 ^ 2))); [|rewrite <- HD; rewrite <- N0, <- N1 | ]. 1: rewrite sqrt_mult by lra; ring. 2: apply Rmult_le_pos; lra.
    rewrite HD. transitivity (s ^ 2 * (D * (p * n0 + q * n1))).
    + f_equal. f_equal. rewrite <- N0, <- N1. unfold m0, m1, m2. ring.
    + rewrite N0, N1. transitivity (s ^ 2 * (G_ * n0 * n0 - 2 * F_ * n0 * n1 + E_ * n1 * n1)); [unfold p, q; field; exact DN|]. unfold E_, F_, G_. ring.
  - unfold len3 at 1. rewrite <- sqrt_1. f_equal. unfold Rdiv. rewrite !Rpow_mult_distr, <- !Rmult_plus_distr_r, <- SQ. field. lra.
  - exists (p / len3 m0 m1 m2), (q / len3 m0 m1 m2). split; [|split].
    + transitivity ((a * p + b * q) / len3 m0 m1 m2); [reflexivity|]. unfold Rdiv. ring.
    + transitivity ((c * p + d * q) / len3 m0 m1 m2); [reflexivity|]. unfold Rdiv. ring.
    + transitivity ((e * p + f * q) / len3 m0 m1 m2); [reflexivity|]. unfold Rdiv. ring.
  - intros w0 w1. rewrite EN. transitivity (((a * m0 + c * m1 + e * m2) * w0 + (b * m0 + d * m1 + f * m2) * w1) / len3 m0 m1 m2); [field; lra|].
    rewrite N0, N1. reflexivity.
  - rewrite EN. exact L.
Qed.
Print Assumptions C156_nanson_2d.
Print Assumptions C156_nanson_3d.
Print Assumptions C156_nanson_manifold.

(** The integral over a curve in the physical domain is the integral over the curve in the reference cell, with the integrand multiplied by the norm of
    the mapped normal and the factor of dx. F1, F2 is the map of the cell, with partial derivatives a, b, c, d along the curve (gx, gy). *)
Definition norm_of (o : outcome (list R)) : R := match o with Ret n => norm n | _ => 0 end.
Definition value_of (o : outcome R) : R := match o with Ret x => x | _ => 0 end.
Theorem C156_curve_integral : forall (F1 F2 : R -> R -> R) (gx gy gx' gy' a b c d n0 n1 : R -> R) (f : R -> R -> R) (lo hi : R),
  (forall t, lo <= t <= hi -> is_derive gx t (gx' t) /\ is_derive gy t (gy' t)
     /\ differentiable_pt_lim F1 (gx t) (gy t) (a t) (b t) /\ differentiable_pt_lim F2 (gx t) (gy t) (c t) (d t)
     /\ a t * d t - b t * c t <> 0 /\ n0 t ^ 2 + n1 t ^ 2 = 1 /\ n0 t * gx' t + n1 t * gy' t = 0) -> lo <= hi ->
  let X := fun t => F1 (gx t) (gy t) in let Y := fun t => F2 (gx t) (gy t) in
  let DF := fun t => [[a t; b t]; [c t; d t]] in
  RInt (fun t => f (X t) (Y t) * len2 (Derive X t) (Derive Y t)) lo hi
  = RInt (fun t => (f (X t) (Y t) * norm_of (mapped_normal (DF t) [n0 t; n1 t] false)) * value_of (scale (DF t)) * len2 (gx' t) (gy' t)) lo hi.
Proof.
  intros F1 F2 gx gy gx' gy' a b c d n0 n1 f lo hi H LH X Y DF. apply RInt_ext. intros t Ht. rewrite Rmin_left, Rmax_right in Ht by lra.
  destruct (H t ltac:(lra)) as (G1 & G2 & D1 & D2 & J & U & O).
  assert (EX : Derive X t = a t * gx' t + b t * gy' t) by (apply is_derive_unique, is_derive_Reals, (derivable_pt_lim_comp_2d F1 gx gy t); [exact D1|apply is_derive_Reals; exact G1|apply is_derive_Reals; exact G2]).
  assert (EY : Derive Y t = c t * gx' t + d t * gy' t) by (apply is_derive_unique, is_derive_Reals, (derivable_pt_lim_comp_2d F2 gx gy t); [exact D2|apply is_derive_Reals; exact G1|apply is_derive_Reals; exact G2]).
  destruct (C156_nanson_2d _ _ _ _ _ _ _ _ J U O) as (m0 & m1 & u0 & u1 & sc & E1 & E2 & _ & E3 & _). unfold DF. rewrite E1, E2, EX, EY, E3. cbn [norm_of value_of]. match goal with |- ?l = ?r => change (@eq R l r) end. ring.
Qed.
Print Assumptions C156_curve_integral.
(** A case: the half circle of radius 1/2 mapped by (x, y) -> (2 x, x + 3 y). *)
Example C156_case : forall t, let a := 2 in let b := 0 in let c := 1 in let d := 3 in
  is_derive (fun t => cos t / 2) t (- sin t / 2) /\ is_derive (fun t => sin t / 2) t (cos t / 2)
  /\ differentiable_pt_lim (fun x y => 2 * x) (cos t / 2) (sin t / 2) a b /\ differentiable_pt_lim (fun x y => x + 3 * y) (cos t / 2) (sin t / 2) c d
  /\ a * d - b * c <> 0 /\ cos t ^ 2 + sin t ^ 2 = 1 /\ cos t * (- sin t / 2) + sin t * (cos t / 2) = 0.
Proof.
  intros t a b c d. split; [auto_derive; [auto|]; lra|]. split; [auto_derive; [auto|]; lra|]. split; [|split; [|split; [|split]]].
  - intros eps. exists eps. intros u v _ _. unfold a, b. match goal with |- Rabs ?x <= _ => assert (E0 : x = 0) by (cbv beta; ring); rewrite E0 end. rewrite Rabs_R0. apply Rmult_le_pos; [destruct eps; cbn; lra|]. apply Rle_trans with (Rabs (u - cos t / 2)); [apply Rabs_pos|apply Rmax_l].
  - intros eps. exists eps. intros u v _ _. unfold c, d. match goal with |- Rabs ?x <= _ => assert (E0 : x = 0) by (cbv beta; ring); rewrite E0 end. rewrite Rabs_R0. apply Rmult_le_pos; [destruct eps; cbn; lra|]. apply Rle_trans with (Rabs (u - cos t / 2)); [apply Rabs_pos|apply Rmax_l].
  - unfold a, b, c, d. lra.
  - pose proof (sin2_cos2 t) as S2. unfold Rsqr in S2. lra.
  - field.
Qed.

(** ** C157 *)
(** A measure with one id (or none): the form has one integral, with the id, the data and the metadata of the measure, and at a point with Jacobian DF,
    unit normal N, unit tangent t and weight w, the kernel adds f times the weight times the ratio of lengths. *)
Theorem C157_single_id_partial : forall mapped_norm fresh fresh' dom id md data degree f, (forall l, id <> Ids l) ->
  let m := new_measure mapped_norm fresh dom id md data degree in
  exists ig, rmul mapped_norm fresh' [f] m = [ig] /\ ci_id ig = id /\ ci_data ig = data /\ md_unfitted (ci_md ig) = true
    /\ (degree <> None -> md_degree (ci_md ig) = degree)
    /\ forall ev a b c d n0 n1 t0 t1 w sc, a * d - b * c <> 0 -> n0 ^ 2 + n1 ^ 2 = 1 -> n0 * t0 + n1 * t1 = 0 -> len2 t0 t1 = 1 ->
        scale [[a; b]; [c; d]] = Ret sc -> ev (mapped_norm fresh dom) = norm_of (mapped_normal [[a; b]; [c; d]] [n0; n1] false) ->
         point_value ev (ci_factors ig) w sc = ev f * w * len2 (a * t0 + b * t1) (c * t0 + d * t1).
Proof.
  intros mapped_norm fresh fresh' dom id md data degree f NI m.
  exists {| ci_factors := [f] ++ [mapped_norm fresh dom]; ci_id := id; ci_md := me_md m; ci_data := data |}. split.
  { unfold rmul, m, new_measure. cbn [me_id]. destruct id as [| |l]; [reflexivity|reflexivity|]. destruct (NI l eq_refl). }
  split; [reflexivity|]. split; [reflexivity|]. split; [reflexivity|]. split; [cbn; destruct degree; congruence|].
  intros ev a b c d n0 n1 t0 t1 w sc J U O T ES EC. destruct (C156_nanson_2d _ _ _ _ _ _ _ _ J U O) as (m0 & m1 & u0 & u1 & sc' & E1 & E2 & _ & E3 & _).
  rewrite ES in E2. assert (sc = sc') as <- by congruence. rewrite E1 in EC. cbn [norm_of] in EC. rewrite E3, T. unfold point_value. cbn [ci_factors app map fold_right]. rewrite EC. ring.
Qed.
(** Refuted for a tuple of ids: UFL's branch for tuples calls reconstruct, and the term is there twice. On a mesh of square cells of side 1/4, the integral
    of f over the boundary with the ids 1 and 2 is four times what it should be. *)
Theorem C157_tuple_refuted : forall mapped_norm fresh fresh' dom md data degree f,
  let m := new_measure mapped_norm fresh dom (Ids [1; 2]%Z) md data degree in
  map ci_id (rmul mapped_norm fresh' [f] m) = [Id 1; Id 2]
  /\ forall ig ev n0 n1 w sc, In ig (rmul mapped_norm fresh' [f] m) -> n0 ^ 2 + n1 ^ 2 = 1 ->
       let DF := [[1 / 4; 0]; [0; 1 / 4]] in
       scale DF = Ret sc -> ev (mapped_norm fresh dom) = norm_of (mapped_normal DF [n0; n1] false) ->
       point_value ev (ci_factors ig) w sc = 4 * (ev f * w * len2 (1 / 4 * - n1 + 0 * n0) (0 * - n1 + 1 / 4 * n0)).
Proof.
  intros mapped_norm fresh fresh' dom md data degree f m. unfold m, rmul, new_measure. cbn [me_id flat_map app]. unfold reconstruct, new_measure, rmul1. cbn [me_dom me_id me_md me_data me_compl]. rewrite Nat.eqb_refl. cbn [map ci_id me_id app me_compl].
  split; [reflexivity|]. intros ig ev n0 n1 w sc Hig U ES EC. set (DF := [[1 / 4; 0]; [0; 1 / 4]]) in *.
  assert (E : ci_factors ig = [f; mapped_norm fresh dom; mapped_norm fresh dom]) by (destruct Hig as [<-|[<-|[]]]; reflexivity). rewrite E. clear E Hig.
  assert (SC : sc = 1 / 16) by (assert (Q : forall x y : R, Ret x = Ret y -> x = y) by (intros; congruence); apply Q; rewrite <- ES; unfold DF; cbn; f_equal; rewrite Rabs_right by lra; lra).
  destruct (C156_nanson_2d (1/4) 0 0 (1/4) n0 n1 (- n1) n0 ltac:(lra) U ltac:(ring)) as (m0 & m1 & u0 & u1 & sc' & E1 & E2 & _ & E3 & _). fold DF in E1, E2.
  assert (sc = sc') as <- by congruence. rewrite E1 in EC. cbn [norm_of] in EC. rewrite E3. unfold point_value. cbn [map fold_right]. rewrite EC.
  assert (T : len2 (- n1) n0 = 1) by (unfold len2; rewrite <- sqrt_1; f_equal; lra). rewrite T.
  assert (N4 : norm [m0; m1] = 4).
  { assert (W : len2 (1 / 4 * - n1 + 0 * n0) (0 * - n1 + 1 / 4 * n0) = 1 / 4).
    { unfold len2. replace ((1 / 4 * - n1 + 0 * n0) ^ 2 + (0 * - n1 + 1 / 4 * n0) ^ 2) with ((1 / 4) ^ 2 * (n0 ^ 2 + n1 ^ 2)) by ring. rewrite U, Rmult_1_r. rewrite sqrt_pow2; lra. }
    rewrite E3, T, SC in W. lra. }
  rewrite N4, SC. ring.
Qed.
(** Calling a measure: it is again a measure of the unfitted boundary, with the new id, the new degree (or that of the new metadata), and the same Nanson term. *)
Theorem C157_call_partial : forall mapped_norm fresh fresh' dom id md data degree id' md' data' degree',
  let m := new_measure mapped_norm fresh dom id md data degree in
  let m' := call_measure mapped_norm fresh' m id' md' data' degree' in
  md_unfitted (me_md m') = true /\ me_dom m' = dom /\ me_compl m' = me_compl m
  /\ me_id m' = (match id' with Some i => i | None => id end) /\ me_data m' = (match data' with Some x => Some x | None => data end)
  /\ md_degree (me_md m') = (match degree' with Some d => Some d | None => match md' with Some x => md_degree x | None => md_degree (me_md m) end end).
Proof.
  intros mapped_norm fresh fresh' dom id md data degree id' md' data' degree' m m'. unfold m', m, call_measure, reconstruct, new_measure. cbn [me_dom me_id me_md me_data me_compl]. rewrite Nat.eqb_refl.
  cbn [me_dom me_id me_md me_data me_compl md_unfitted md_degree]. destruct degree', md', id', data'; repeat split.
Qed.
Print Assumptions C157_single_id_partial.
Print Assumptions C157_tuple_refuted.
Print Assumptions C157_call_partial.
