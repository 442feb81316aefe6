From Coq Require Import Reals List Lia Lra Nsatz.
From Verif Require Import M_Affine L_Real S_Affine.
Import ListNotations.
Open Scope R_scope.

Lemma len2 (l : list R) : length l = 2%nat -> exists a b, l = [a; b].
Proof. destruct l as [|a [|b [|]]]; simpl; intros; try lia. eauto. Qed.
Lemma len3 (l : list R) : length l = 3%nat -> exists a b c, l = [a; b; c].
Proof. destruct l as [|a [|b [|c [|]]]]; simpl; intros; try lia. eauto. Qed.
Lemma len6 (l : list R) : length l = 6%nat -> exists a b c d e f, l = [a; b; c; d; e; f].
Proof. do 7 (destruct l as [|? l]; try (simpl; intros; lia)). intros _. repeat eexists. Qed.
Lemma len12 (l : list R) : length l = 12%nat -> exists a b c d e f g h i j k m, l = [a; b; c; d; e; f; g; h; i; j; k; m].
Proof. do 13 (destruct l as [|? l]; try (simpl; intros; lia)). intros _. repeat eexists. Qed.

Ltac crunch := unfold translation; unfold transform_point, transform_vector, compose, inverse, invert_matrix, invert2, invert3, sum_loop, ind, affine, aff_det, det2, det3, coefs_scale, dot; unfold vx;
  cbn [map seq flat_map app fold_left fold_right nth Nat.mul Nat.add firstn skipn map2].
Ltac list_eq t := repeat match goal with |- _ :: _ = _ :: _ => apply f_equal2; [t|] | |- [] = [] => reflexivity end.

Lemma transform_point_spec dim c p : (dim = 2 \/ dim = 3)%nat -> transform_point dim c p = affine dim c p.
Proof. intros [-> | ->]; crunch; list_eq ltac:(ring). Qed.
Lemma compose_lemma dim A B p : (dim = 2 \/ dim = 3)%nat -> length p = dim ->
  transform_point dim (compose dim A B) p = transform_point dim A (transform_point dim B p).
Proof.
  intros [-> | ->] Hp.
  - crunch. list_eq ltac:(ring).
  - crunch. list_eq ltac:(ring).
Qed.
Lemma compose_assoc dim A B C : (dim = 2 \/ dim = 3)%nat -> compose dim (compose dim A B) C = compose dim A (compose dim B C).
Proof. intros [-> | ->]; crunch; list_eq ltac:(ring). Qed.
Lemma compose_length dim A B : (dim = 2 \/ dim = 3)%nat -> length (compose dim A B) = (dim * (dim + 1))%nat.
Proof. intros [-> | ->]; reflexivity. Qed.
Lemma identity_neutral dim A : (dim = 2 \/ dim = 3)%nat -> length A = (dim * (dim + 1))%nat ->
  compose dim (translation dim [0; 0; 0]) A = A /\ compose dim A (translation dim [0; 0; 0]) = A.
Proof.
  intros [-> | ->] H.
  - destruct (len6 A H) as (a & b & c & d & e & f & ->). crunch. split; list_eq ltac:(ring).
  - destruct (len12 A H) as (a & b & c & d & e & f & g & h & i & j & k & m & ->). crunch. split; list_eq ltac:(ring).
Qed.
Lemma identity_point dim p : (dim = 2 \/ dim = 3)%nat -> length p = dim -> transform_point dim (translation dim [0; 0; 0]) p = p.
Proof.
  intros [-> | ->] H.
  - destruct (len2 p H) as (a & b & ->). crunch. list_eq ltac:(ring).
  - destruct (len3 p H) as (a & b & c & ->). crunch. list_eq ltac:(ring).
Qed.

Lemma inverse_lemma dim A : (dim = 2 \/ dim = 3)%nat -> length A = (dim * (dim + 1))%nat ->
  (Rabs (aff_det dim A) <= default_tol -> inverse dim A = Abort) /\
  (default_tol < Rabs (aff_det dim A) -> exists B, inverse dim A = Ret B /\ length B = (dim * (dim + 1))%nat /\
     compose dim A B = translation dim [0; 0; 0] /\ compose dim B A = translation dim [0; 0; 0]).
Proof.
  intros [-> | ->] H.
  - destruct (len6 A H) as (a & b & c & d & e & f & ->). crunch. unfold is_zero.
    replace (a * d - b * c) with (a * d - b * c) by ring.
    assert (default_tol = 10 * M_Domain.eps) by reflexivity.
    split; intros Hd.
    + replace (Rleb _ _) with true; [reflexivity|]. symmetry. apply Rleb_true. exact Hd.
    + replace (Rleb _ _) with false; [|symmetry; apply Rleb_false; exact Hd]. cbn [negb assert_ bind].
      assert (a * d - b * c <> 0). { intros E. rewrite E, Rabs_R0 in Hd. assert (0 < default_tol). { unfold default_tol, M_Domain.eps; lra. } lra. }
      eexists. split; [reflexivity|]. split; [reflexivity|]. crunch. split; list_eq ltac:(field; auto).
  - destruct (len12 A H) as (a & b & c & d & e & f & g & h & i & j & k & m & ->). crunch. unfold is_zero.
    set (dt := a * (e * i - h * f) - b * (d * i - f * g) + c * (d * h - e * g)).
    replace (a * (e * i - f * h) - b * (d * i - f * g) + c * (d * h - e * g)) with dt by (unfold dt; ring).
    split; intros Hd.
    + replace (Rleb _ _) with true; [reflexivity|]. symmetry. apply Rleb_true. exact Hd.
    + replace (Rleb _ _) with false; [|symmetry; apply Rleb_false; exact Hd]. cbn [negb assert_ bind].
      assert (dt <> 0). { intros E. rewrite E, Rabs_R0 in Hd. assert (0 < default_tol). { unfold default_tol, M_Domain.eps; lra. } lra. }
      eexists. split; [reflexivity|]. split; [reflexivity|]. crunch. split; list_eq ltac:(unfold dt in *; field; auto).
Qed.

(** ** Orthonormal systems *)
Lemma norm2_eq x y : vec_norm [x; y] = sqrt (x * x + y * y).
Proof. unfold vec_norm. cbn. f_equal. ring. Qed.
Lemma norm3_eq x y z : vec_norm [x; y; z] = sqrt (x * x + y * y + z * z).
Proof. unfold vec_norm. cbn. f_equal. ring. Qed.
Lemma norm2_sq x y : vec_norm [x; y] * vec_norm [x; y] = x * x + y * y.
Proof. rewrite norm2_eq. apply sqrt_sqrt. nra. Qed.
Lemma norm3_sq x y z : vec_norm [x; y; z] * vec_norm [x; y; z] = x * x + y * y + z * z.
Proof. rewrite norm3_eq. apply sqrt_sqrt. nra. Qed.
Lemma norm_pos v : 0 <= vec_norm v.
Proof. unfold vec_norm. apply sqrt_pos. Qed.

(** Unit vector of a non-zero vector. *)
Lemma unit3 x y z : vec_norm [x; y; z] <> 0 -> exists u v w, vscale (/ vec_norm [x; y; z]) [x; y; z] = [u; v; w] /\ u * u + v * v + w * w = 1 /\
  same_direction [u; v; w] [x; y; z] /\ (forall a b c, a * x + b * y + c * z = 0 -> a * u + b * v + c * w = 0) /\ u = / vec_norm [x;y;z] * x /\ v = / vec_norm [x;y;z] * y /\ w = / vec_norm [x;y;z] * z.
Proof.
  intros H. set (n := vec_norm _) in *. pose proof (norm3_sq x y z) as S. fold n in S.
  exists (/ n * x), (/ n * y), (/ n * z). split; [reflexivity|]. split; [|split; [|split; auto]].
  - replace (/ n * x * (/ n * x) + / n * y * (/ n * y) + / n * z * (/ n * z)) with (/ n * / n * (n * n)) by (rewrite S; ring). field; auto.
  - exists (/ n). split; [|reflexivity]. apply Rinv_0_lt_compat. pose proof (norm_pos [x; y; z]). fold n in H0. lra.
  - intros a b c E. replace (a * (/ n * x) + b * (/ n * y) + c * (/ n * z)) with (/ n * (a * x + b * y + c * z)) by ring. rewrite E. ring.
Qed.
Lemma unit2 x y : vec_norm [x; y] <> 0 -> exists u v, vscale (/ vec_norm [x; y]) [x; y] = [u; v] /\ u * u + v * v = 1 /\ same_direction [u; v] [x; y].
Proof.
  intros H. set (n := vec_norm _) in *. pose proof (norm2_sq x y) as S. fold n in S.
  exists (/ n * x), (/ n * y). split; [reflexivity|]. split.
  - replace (/ n * x * (/ n * x) + / n * y * (/ n * y)) with (/ n * / n * (n * n)) by (rewrite S; ring). field; auto.
  - exists (/ n). split; [|reflexivity]. apply Rinv_0_lt_compat. pose proof (norm_pos [x; y]). fold n in H0. lra.
Qed.

Definition ON3 (e0 e1 e2 : list R) : Prop := orthonormal [e0; e1; e2] /\ det3 e0 e1 e2 = 1.
(** Two orthogonal unit vectors and their cross product. *)
Lemma on3_cross a b c x y z : a * a + b * b + c * c = 1 -> x * x + y * y + z * z = 1 -> a * x + b * y + c * z = 0 ->
  ON3 [a; b; c] [x; y; z] (cross [a; b; c] [x; y; z]).
Proof.
  intros H1 H2 H3. unfold ON3, cross, vx. cbn [nth]. split.
  - intros i j Hi Hj. split; [destruct i as [|[|[|]]]; try reflexivity; simpl in Hi; lia|].
    assert (L : (b * z - c * y) * (b * z - c * y) + (c * x - a * z) * (c * x - a * z) + (a * y - b * x) * (a * y - b * x) = 1).
    { replace (_ + _) with ((a * a + b * b + c * c) * (x * x + y * y + z * z) - (a * x + b * y + c * z) * (a * x + b * y + c * z)) by ring. rewrite H1, H2, H3. ring. }
    destruct i as [|[|[|]]]; [| | |simpl in Hi; lia]; (destruct j as [|[|[|]]]; [| | |simpl in Hj; lia]); cbn [inner nth map seq length fold_right Nat.eqb]; unfold inner; cbn [nth map seq length fold_right]; lra.
  - unfold det3. cbn [nth].
    replace (_ + _) with ((a * a + b * b + c * c) * (x * x + y * y + z * z) - (a * x + b * y + c * z) * (a * x + b * y + c * z)) by ring. rewrite H1, H2, H3. ring.
Qed.
Lemma det3_rot u v w : det3 u v w = det3 v w u.
Proof. unfold det3. ring. Qed.
Lemma on3_rot u v w : ON3 u v w -> ON3 v w u.
Proof.
  intros [H D]. split; [|rewrite <- D; unfold det3; ring].
  assert (P : forall i j, (i < 3)%nat -> (j < 3)%nat -> length (nth i [u; v; w] []) = 3%nat /\ inner (nth i [u; v; w] []) (nth j [u; v; w] []) = if Nat.eqb i j then 1 else 0) by exact H.
  intros i j Hi Hj. simpl in Hi, Hj.
  destruct i as [|[|[|]]]; [| | |lia]; (destruct j as [|[|[|]]]; [| | |lia]).
  - apply (P 1 1)%nat; lia. - apply (P 1 2)%nat; lia. - apply (P 1 0)%nat; lia.
  - apply (P 2 1)%nat; lia. - apply (P 2 2)%nat; lia. - apply (P 2 0)%nat; lia.
  - apply (P 0 1)%nat; lia. - apply (P 0 2)%nat; lia. - apply (P 0 0)%nat; lia.
Qed.
Lemma cross_len u v : exists a b c, cross u v = [a; b; c].
Proof. unfold cross. eauto. Qed.
Lemma div_ok v n : n <> 0 -> div_by v n = Ret (vscale (/ n) v).
Proof. intros H. unfold div_by. destruct (Reqb_spec n 0); [contradiction|reflexivity]. Qed.
Lemma default_tol_pos : 0 < default_tol.
Proof. unfold default_tol, M_Domain.eps. lra. Qed.
Lemma nonzero_pos v : vec_norm v <> 0 -> 0 < vec_norm v.
Proof. pose proof (norm_pos v). lra. Qed.

Lemma ortho2_lemma axis : length axis = 2%nat -> vec_norm axis <> 0 ->
  exists e0 e1, ortho2 axis = Ret [e0; e1] /\ orthonormal [e0; e1] /\ det2 e0 e1 = 1 /\ same_direction e0 axis.
Proof.
  intros Hl H. destruct (len2 axis Hl) as (x & y & ->). unfold ortho2. rewrite div_ok by auto. cbn [bind].
  destruct (unit2 x y H) as (u & v & -> & N & D). exists [u; v], [- v; u]. split; [reflexivity|]. split; [|split; auto].
  - intros i j Hi Hj. split; [destruct i as [|[|]]; try reflexivity; simpl in Hi; lia|].
    destruct i as [|[|]]; [| |simpl in Hi; lia]; (destruct j as [|[|]]; [| |simpl in Hj; lia]); unfold inner; cbn [nth map seq length fold_right Nat.eqb]; lra.
  - unfold det2. cbn [nth]. lra.
Qed.
Lemma ortho1_lemma x : x <> 0 -> exists e0, ortho1 [x] = Ret [e0] /\ orthonormal [e0] /\ same_direction e0 [x].
Proof.
  intros H. assert (S : vec_norm [x] * vec_norm [x] = x * x). { unfold vec_norm. cbn. rewrite sqrt_sqrt; [ring|nra]. }
  assert (N : vec_norm [x] <> 0) by (intros E; rewrite E in S; nra).
  unfold ortho1. rewrite div_ok by auto. cbn [bind]. eexists. split; [reflexivity|]. split.
  - intros i j Hi Hj. simpl in Hi, Hj. assert (i = 0)%nat by lia. assert (j = 0)%nat by lia. subst. split; [reflexivity|].
    unfold inner, vscale. cbn [nth map seq length fold_right Nat.eqb].
    replace (_ + 0) with (/ vec_norm [x] * / vec_norm [x] * (x * x)) by ring. rewrite <- S. field. auto.
  - exists (/ vec_norm [x]). split; [apply Rinv_0_lt_compat, nonzero_pos; auto|reflexivity].
Qed.

Lemma ortho_axes_lemma (ax ay : list R) : length ax = 3%nat -> length ay = 3%nat -> vec_norm (cross ax ay) <> 0 ->
  exists e0 e1 e2, ortho_axes3 ax ay = Ret [e0; e1; e2] /\ aff_ortho ax ay = Ret [e0; e1; e2] /\ ON3 e0 e1 e2 /\ same_direction e0 ax /\
    same_direction e2 (cross ax ay) /\ 0 < inner e1 ay /\ inner e2 ay = 0.
Proof.
  intros Hx Hy H. destruct (len3 ax Hx) as (x & y & z & ->). destruct (len3 ay Hy) as (p & q & r & ->).
  assert (Nx : vec_norm [x; y; z] <> 0).
  { intros E. apply H. pose proof (norm3_sq x y z) as S. rewrite E in S.
    assert (x = 0) by nra. assert (y = 0) by nra. assert (z = 0) by nra. subst. unfold cross, vx. cbn [nth].
    replace (0 * r - 0 * q) with 0 by ring. replace (0 * p - 0 * r) with 0 by ring. replace (0 * q - 0 * p) with 0 by ring.
    rewrite norm3_eq. replace (0 * 0 + 0 * 0 + 0 * 0) with 0 by ring. apply sqrt_0. }
  unfold ortho_axes3, aff_ortho. destruct (Reqb_spec (vec_norm [x; y; z]) 0) as [E|_]; [contradiction|].
  rewrite (proj2 (Rltb_true 0 (vec_norm [x; y; z]))) by (apply nonzero_pos; auto). cbn [assert_].
  rewrite div_ok by auto. cbn [bind]. replace (1 / vec_norm [x; y; z]) with (/ vec_norm [x; y; z]) by (unfold Rdiv; ring).
  destruct (unit3 x y z Nx) as (u & v & w & -> & N & D & _ & Eu & Ev & Ew).
  set (n := vec_norm [x; y; z]) in *.
  assert (C : cross [u; v; w] [p; q; r] = vscale (/ n) (cross [x; y; z] [p; q; r])).
  { unfold cross, vscale, vx. cbn [nth map]. subst u v w. list_eq ltac:(ring). }
  destruct (cross_len [x; y; z] [p; q; r]) as (a0 & b0 & c0 & E0).
  assert (npos : 0 < n) by (unfold n; apply nonzero_pos; auto).
  assert (Nz : vec_norm (cross [u; v; w] [p; q; r]) <> 0).
  { rewrite C, E0. unfold vscale. cbn [map]. rewrite norm3_eq. intros E. apply H. rewrite E0, norm3_eq.
    apply sqrt_eq_0 in E; [|nra].
    assert (a0 * a0 + b0 * b0 + c0 * c0 = 0).
    { replace (/ n * a0 * (/ n * a0) + / n * b0 * (/ n * b0) + / n * c0 * (/ n * c0)) with (/ n * / n * (a0 * a0 + b0 * b0 + c0 * c0)) in E by ring.
      apply Rmult_integral in E. destruct E as [E|E]; auto. assert (0 < / n) by (apply Rinv_0_lt_compat; auto). nra. }
    rewrite H0. apply sqrt_0. }
  rewrite (proj2 (Rltb_true 0 _)) by (apply nonzero_pos; auto). cbn [assert_]. rewrite div_ok by auto. cbn [bind].
  replace (1 / vec_norm (cross [u; v; w] [p; q; r])) with (/ vec_norm (cross [u; v; w] [p; q; r])) by (unfold Rdiv; ring).
  assert (Ec : cross [u; v; w] [p; q; r] = [v * r - w * q; w * p - u * r; u * q - v * p]) by reflexivity.
  rewrite Ec in *.
  destruct (unit3 _ _ _ Nz) as (a & b & c & -> & N2 & D2 & Or & Ea & Eb & Eq).
  assert (Ho : a * u + b * v + c * w = 0) by (specialize (Or u v w); lra).
  assert (Hoy : a * p + b * q + c * r = 0) by (specialize (Or p q r); lra).
  set (m := vec_norm [v * r - w * q; w * p - u * r; u * q - v * p]) in *.
  exists [u; v; w], (cross [a; b; c] [u; v; w]), [a; b; c]. split; [reflexivity|]. split; [reflexivity|]. split; [|split; [auto|split; [|split]]].
  - apply on3_rot. apply on3_rot. apply on3_rot. apply on3_rot. apply on3_cross; auto.
  - destruct D2 as (k & Hk & Ek). exists (k * / n). split; [apply Rmult_lt_0_compat; auto; apply Rinv_0_lt_compat; auto|].
    rewrite Ek, C. unfold vscale. rewrite map_map. apply map_ext. intros. ring.
  - unfold inner, cross, vx. cbn [nth map seq length fold_right].
    replace (_ + _) with (a * (v * r - w * q) + b * (w * p - u * r) + c * (u * q - v * p)) by ring.
    assert (mp : 0 < m) by (apply nonzero_pos; auto). pose proof (norm3_sq (v * r - w * q) (w * p - u * r) (u * q - v * p)) as Sm. fold m in Sm.
    rewrite Ea, Eb, Eq.
    replace (_ + _) with (/ m * ((v * r - w * q) * (v * r - w * q) + (w * p - u * r) * (w * p - u * r) + (u * q - v * p) * (u * q - v * p))) by ring.
    rewrite <- Sm. rewrite <- Rmult_assoc, Rinv_l, Rmult_1_l; lra.
  - unfold inner. cbn [nth map seq length fold_right]. lra.
Qed.

Lemma zaxis_cases z0 z1 z2 tol : 0 < tol < 1 -> z0 * z0 + z1 * z1 + z2 * z2 = 1 ->
  (tol < vec_norm (cross [z0; z1; z2] [1; 0; 0]) /\ vec_norm (cross [z0; z1; z2] [1; 0; 0]) <> 0) \/
  (vec_norm (cross [z0; z1; z2] [1; 0; 0]) <= tol /\ vec_norm (cross [0; 1; 0] [z0; z1; z2]) <> 0).
Proof.
  intros Ht H. destruct (Rlt_le_dec tol (vec_norm (cross [z0; z1; z2] [1; 0; 0]))) as [L|L]; [left|right]; split; auto; try lra.
  unfold cross, vx in *. cbn [nth] in *. rewrite !norm3_eq in *. intros E. apply sqrt_eq_0 in E; [|nra].
  assert (z0 = 0) by nra. assert (z2 = 0) by nra. subst.
  assert (z1 * z1 = 1) by lra.
  replace (_ + _) with 1 in L by lra. rewrite sqrt_1 in L. lra.
Qed.

Lemma ortho3_lemma axis : length axis = 3%nat ->
  (vec_norm axis <= default_tol -> ortho3 axis = Abort) /\
  (default_tol < vec_norm axis -> exists e0 e1 e2, ortho3 axis = Ret [e0; e1; e2] /\ ON3 e0 e1 e2 /\ same_direction e2 axis).
Proof.
  intros Hl. destruct (len3 axis Hl) as (x & y & z & ->). unfold ortho3, is_zero. split; intros H.
  - rewrite Rabs_pos_eq by apply norm_pos. rewrite (proj2 (Rleb_true _ _)) by auto. reflexivity.
  - rewrite Rabs_pos_eq by apply norm_pos. rewrite (proj2 (Rleb_false _ _)) by auto. cbn [negb assert_].
    pose proof default_tol_pos. rewrite div_ok by lra. cbn [bind].
    destruct (unit3 x y z ltac:(lra)) as (u & v & w & -> & N & D & _).
    destruct (zaxis_cases u v w (1 / 10) ltac:(lra) N) as [[L Z]|[L Z]].
    + rewrite (proj2 (Rltb_true _ _)) by auto. rewrite div_ok by auto. cbn [bind].
      assert (Ec : cross [u; v; w] [1; 0; 0] = [v * 0 - w * 0; w * 1 - u * 0; u * 0 - v * 1]) by reflexivity.
      rewrite Ec in *. destruct (unit3 _ _ _ Z) as (a & b & c & -> & N2 & _ & Or & _).
      exists (cross [a; b; c] [u; v; w]), [a; b; c], [u; v; w]. split; [reflexivity|]. split; auto.
      apply on3_rot, on3_rot. apply on3_cross; auto. specialize (Or u v w). lra.
    + rewrite (proj2 (Rltb_false _ _)) by auto. rewrite div_ok by auto. cbn [bind].
      assert (Ec : cross [0; 1; 0] [u; v; w] = [1 * w - 0 * v; 0 * u - 0 * w; 0 * v - 1 * u]) by reflexivity.
      rewrite Ec in *. destruct (unit3 _ _ _ Z) as (a & b & c & -> & N2 & _ & Or & _).
      exists [a; b; c], (cross [u; v; w] [a; b; c]), [u; v; w]. split; [reflexivity|]. split; auto.
      apply on3_rot. apply on3_rot. apply on3_rot. apply on3_rot. apply on3_cross; auto. specialize (Or u v w). lra.
Qed.

Lemma around_lemma axis : length axis = 3%nat -> default_tol < vec_norm axis -> 1 / 10000 * vec_norm axis < sqrt (vx axis 1 * vx axis 1 + vx axis 2 * vx axis 2) ->
  exists e0 e1 e2, ref_around_axis axis = Ret (e0, e1) /\ ON3 e0 e1 e2 /\ same_direction e2 axis.
Proof.
  intros Hl H Hoff. destruct (len3 axis Hl) as (x & y & z & ->). unfold ref_around_axis, is_zero.
  rewrite Rabs_pos_eq by apply norm_pos. rewrite (proj2 (Rleb_false _ _)) by auto. cbn [negb assert_].
  pose proof default_tol_pos. rewrite div_ok by lra. cbn [bind].
  destruct (unit3 x y z ltac:(lra)) as (u & v & w & -> & N & D & _ & Eu & Ev & Ew).
  set (n := vec_norm [x; y; z]) in *. assert (0 < / n) by (apply Rinv_0_lt_compat; lra).
  assert (Ec : cross [u; v; w] [1; 0; 0] = [v * 0 - w * 0; w * 1 - u * 0; u * 0 - v * 1]) by reflexivity.
  assert (En : vec_norm (cross [u; v; w] [1; 0; 0]) = / n * sqrt (y * y + z * z)).
  { rewrite Ec, norm3_eq. rewrite Ev, Ew, Eu.
    replace (_ + _) with ((/ n * / n) * (y * y + z * z)) by ring. rewrite sqrt_mult by nra. rewrite sqrt_square; lra. }
  assert (L : 1 / 10000 < vec_norm (cross [u; v; w] [1; 0; 0])).
  { rewrite En. unfold vx in Hoff. cbn [nth] in Hoff. apply (Rmult_lt_compat_l (/ n)) in Hoff; auto.
    replace (/ n * (1 / 10000 * n)) with (1 / 10000) in Hoff by (field; lra). exact Hoff. }
  assert (Z : vec_norm (cross [u; v; w] [1; 0; 0]) <> 0) by lra.
  rewrite (proj2 (Rltb_true _ _)) by auto. rewrite div_ok by auto. cbn [bind].
  rewrite Ec in *. destruct (unit3 _ _ _ Z) as (a & b & c & -> & N2 & _ & Or & _).
  exists (cross [a; b; c] [u; v; w]), [a; b; c], [u; v; w]. split; [reflexivity|]. split; auto.
  apply on3_rot, on3_rot. apply on3_cross; auto. specialize (Or u v w). lra.
Qed.
Lemma around_refuted : exists ax, ref_around_axis [1; 0; 0] = Ret (ax, [0; 0; 0]).
Proof.
  unfold ref_around_axis, is_zero.
  assert (N : vec_norm [1; 0; 0] = 1). { rewrite norm3_eq. replace (_ + _) with 1 by ring. apply sqrt_1. }
  rewrite N, Rabs_R1. rewrite (proj2 (Rleb_false _ _)) by (unfold default_tol, M_Domain.eps; lra). cbn [negb assert_].
  rewrite div_ok by lra. cbn [bind]. unfold vscale. cbn [map].
  replace (/ 1 * 1) with 1 by field. replace (/ 1 * 0) with 0 by field.
  assert (C : cross [1; 0; 0] [1; 0; 0] = [0; 0; 0]). { unfold cross, vx. cbn [nth]. list_eq ltac:(ring). }
  rewrite C. assert (Z : vec_norm [0; 0; 0] = 0). { rewrite norm3_eq. replace (_ + _) with 0 by ring. apply sqrt_0. }
  rewrite Z. rewrite (proj2 (Rltb_false _ _)) by lra.
  assert (C2 : cross [0; 1; 0] [1; 0; 0] = [0; 0; - (1)]). { unfold cross, vx. cbn [nth]. list_eq ltac:(ring). }
  rewrite C2. rewrite div_ok. 2:{ rewrite norm3_eq. replace (_ + _) with 1 by ring. rewrite sqrt_1. lra. }
  cbn [bind]. eexists. f_equal. f_equal. unfold cross, vx. cbn [nth]. list_eq ltac:(ring).
Qed.

Lemma coefs_scale_lemma dim origin s p : (dim = 2 \/ dim = 3)%nat -> length p = dim -> length origin = dim ->
  transform_point dim (coefs_scale dim origin s) p = vadd origin (vscale s p).
Proof.
  intros [-> | ->] Hp Ho.
  - destruct (len2 p Hp) as (a & b & ->). destruct (len2 origin Ho) as (c & d & ->). crunch. unfold vadd, vscale. cbn [map map2]. list_eq ltac:(ring).
  - destruct (len3 p Hp) as (a & b & c & ->). destruct (len3 origin Ho) as (d & e & f & ->). crunch. unfold vadd, vscale. cbn [map map2]. list_eq ltac:(ring).
Qed.
Lemma coefs_axes2_lemma origin ax sx sy : length origin = 2%nat -> length ax = 2%nat -> 0 < sx -> 0 < sy -> vec_norm ax <> 0 ->
  exists cf e0 e1, coefs_axes2 origin ax sx sy = Ret cf /\ orthonormal [e0; e1] /\ det2 e0 e1 = 1 /\ same_direction e0 ax /\
    aff_det 2 cf = sx * sy /\
    forall a b, transform_point 2 cf [a; b] = vadd origin (vadd (vscale (a * sx) e0) (vscale (b * sy) e1)).
Proof.
  intros Ho Hx Hsx Hsy H. destruct (ortho2_lemma ax Hx H) as (e0 & e1 & He & ON & D & S).
  unfold ortho2 in He. unfold coefs_axes2. rewrite !(proj2 (Rltb_true 0 _)) by (auto; apply nonzero_pos; auto). cbn [assert_].
  rewrite div_ok in * by auto. cbn [bind] in *. injection He as <- <-.
  eexists. do 2 eexists. split; [reflexivity|]. split; [exact ON|]. split; [exact D|]. split; [exact S|].
  destruct (len2 ax Hx) as (x & y & ->). destruct (len2 origin Ho) as (c & d & ->).
  destruct (unit2 x y H) as (u & v & E & N & _). rewrite E. unfold vx. cbn [nth]. split.
  - unfold aff_det, det2. cbn [firstn skipn nth]. rewrite <- (Rmult_1_r (sx * sy)), <- N. ring.
  - intros a b. crunch. unfold vadd, vscale. cbn [map map2]. list_eq ltac:(ring).
Qed.
Lemma coefs_axes3_lemma origin ax ay sx sy sz : length origin = 3%nat -> length ax = 3%nat -> length ay = 3%nat -> 0 < sx -> 0 < sy -> 0 < sz -> vec_norm (cross ax ay) <> 0 ->
  exists cf e0 e1 e2, coefs_axes3 origin ax ay sx sy sz = Ret cf /\ orthonormal [e0; e1; e2] /\ det3 e0 e1 e2 = 1 /\ same_direction e0 ax /\
    0 < inner e1 ay /\ inner e2 ay = 0 /\ aff_det 3 cf = sx * sy * sz /\
    forall a b c, transform_point 3 cf [a; b; c] = vadd origin (vadd (vscale (a * sx) e0) (vadd (vscale (b * sy) e1) (vscale (c * sz) e2))).
Proof.
  intros Ho Hx Hy Hsx Hsy Hsz H. destruct (ortho_axes_lemma ax ay Hx Hy H) as (e0 & e1 & e2 & _ & He & [ON D] & S & _ & P & Q).
  unfold coefs_axes3. rewrite !(proj2 (Rltb_true 0 _)) by auto. cbn [assert_]. rewrite He. cbn [bind nth].
  eexists. exists e0, e1, e2. split; [reflexivity|]. split; [exact ON|]. split; [exact D|]. split; [exact S|]. split; [exact P|]. split; [exact Q|].
  destruct (ON 0%nat 0%nat) as [L0 _]; [simpl; lia|simpl; lia|]. destruct (ON 1%nat 0%nat) as [L1 _]; [simpl; lia|simpl; lia|]. destruct (ON 2%nat 0%nat) as [L2 _]; [simpl; lia|simpl; lia|].
  cbn [nth length] in L0, L1, L2.
  destruct (len3 origin Ho) as (o0 & o1 & o2 & ->).
  destruct (len3 e0 L0) as (x0 & x1 & x2 & ->). destruct (len3 e1 L1) as (y0 & y1 & y2 & ->). destruct (len3 e2 L2) as (z0 & z1 & z2 & ->).
  split.
  - unfold aff_det. unfold vx. unfold det3 in *. cbn [firstn skipn nth] in *. rewrite <- (Rmult_1_r (sx * sy * sz)), <- D. ring.
  - intros a b c. crunch. unfold vadd, vscale. cbn [map map2]. list_eq ltac:(ring).
Qed.
Lemma cartesian_lemma dim origin : (1 <= dim <= 3)%nat -> orthonormal (r_basis (ref_cartesian dim origin)) /\ is_cartesian dim (ref_cartesian dim origin) = true.
Proof.
  intros H. assert (E : (dim = 1 \/ dim = 2 \/ dim = 3)%nat) by lia. pose proof default_tol_pos as T.
  assert (Q : tol_equal default_tol 1 1 = true). { unfold tol_equal. apply Rleb_true. replace (1 - 1) with 0 by ring. rewrite Rabs_R0. lra. }
  destruct E as [-> | [-> | ->]]; (split; [|cbn; rewrite ?Q; reflexivity]); intros i j Hi Hj; cbn [r_basis ref_cartesian length] in Hi, Hj.
  - assert (i = 0)%nat by lia. assert (j = 0)%nat by lia. subst. split; [reflexivity|]. unfold inner. cbn. ring.
  - destruct i as [|[|]]; [| |lia]; (destruct j as [|[|]]; [| |lia]); (split; [reflexivity|]); unfold inner; cbn; ring.
  - destruct i as [|[|[|]]]; [| | |lia]; (destruct j as [|[|[|]]]; [| | |lia]); (split; [reflexivity|]); unfold inner; cbn; ring.
Qed.

(** Bodies of the theorems. *)
Lemma C36_body : forall dim A B C p, (dim = 2 \/ dim = 3)%nat -> length A = (dim * (dim + 1))%nat -> length p = dim ->
  transform_point dim A p = affine dim A p /\
  transform_point dim (compose dim A B) p = transform_point dim A (transform_point dim B p) /\
  compose dim (compose dim A B) C = compose dim A (compose dim B C) /\
  (let I := translation dim [0; 0; 0] in compose dim I A = A /\ compose dim A I = A /\ transform_point dim I p = p).
Proof.
  intros dim A B C p Hd HA Hp. split; [apply transform_point_spec; auto|]. split; [apply compose_lemma; auto|]. split; [apply compose_assoc; auto|].
  destruct (identity_neutral dim A Hd HA). repeat split; auto. apply identity_point; auto.
Qed.
Lemma C36_inv_body : forall dim A p, (dim = 2 \/ dim = 3)%nat -> length A = (dim * (dim + 1))%nat -> length p = dim ->
  default_tol < Rabs (aff_det dim A) -> exists B, inverse dim A = Ret B /\
    transform_point dim B (transform_point dim A p) = p /\ transform_point dim A (transform_point dim B p) = p.
Proof.
  intros dim A p Hd HA Hp H. destruct (proj2 (inverse_lemma dim A Hd HA) H) as (B & HB & _ & H1 & H2).
  exists B. split; auto. rewrite <- !compose_lemma by auto. rewrite H1, H2. rewrite identity_point by auto. auto.
Qed.
