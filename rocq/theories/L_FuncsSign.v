From Coq Require Import Reals List Lia Lra Bool.
From Verif Require Import M_Funcs S_Affine S_Funcs L_Real L_Affine L_Deriv L_Tpms L_Funcs.
Import ListNotations.
Open Scope R_scope.

Lemma edist_pos p q : 0 <= edist p q.
Proof. apply sqrt_pos. Qed.
Lemma sq_lt a b : 0 <= a -> 0 <= b -> (a * a < b * b <-> a < b).
Proof. intros. split; intros; nra. Qed.
Lemma sq_eq a b : 0 <= a -> 0 <= b -> (a * a = b * b <-> a = b).
Proof. intros. split; intros H1; [nra|subst; auto]. Qed.
Ltac ed H := let E := fresh "ED" in pose proof H as E; cbn [length map seq nth fold_right] in E.

Lemma sphere_sign dim r c f p : (dim = 2 \/ dim = 3)%nat -> length c = dim -> length p = dim -> sphere dim r c = Ret f ->
  (fval f p < 0 <-> edist p c < r) /\ (fval f p = 0 <-> edist p c = r).
Proof.
  intros Hd Hc Hp H. apply assert_ret_inv in H as [B <-]. rewrite Rltb_true in B.
  assert (E : sqrnorm (vsub p c) = edist p c * edist p c).
  { rewrite edist_sq, Hp. destruct Hd as [-> | ->]; [dest2|dest3]; fn_red; ring. }
  cbn [fval]. rewrite E. pose proof (edist_pos p c). rewrite <- (sq_lt (edist p c) r), <- (sq_eq (edist p c) r) by lra. split; split; lra.
Qed.
Lemma annulus_sign ri ro c f p : length c = 2%nat -> length p = 2%nat -> annulus ri ro c = Ret f ->
  (fval f p < 0 <-> ri < edist p c < ro) /\ (fval f p = 0 <-> edist p c = ri \/ edist p c = ro).
Proof.
  intros Hc Hp H. apply assert_ret_inv in H as [B <-]. apply andb_true_iff in B as [B1 B2]. rewrite Rltb_true in B1, B2.
  assert (E : sqrnorm (vsub p c) = edist p c * edist p c) by (rewrite edist_sq, Hp; dest2; fn_red; ring).
  cbn [fval]. cbv zeta. rewrite E. pose proof (edist_pos p c) as P. set (D := edist p c) in *.
  replace ((D * D - ri * ri - ro * ro) * (D * D) + ri * ri * (ro * ro)) with ((D - ri) * (D - ro) * ((D + ri) * (D + ro))) by ring.
  assert (Q : 0 < (D + ri) * (D + ro)) by (apply Rmult_lt_0_compat; lra). set (Z := (D + ri) * (D + ro)) in *.
  split; split.
  - intros K. assert (K' : (D - ri) * (D - ro) < 0) by nra. nra.
  - intros K. assert (K' : (D - ri) * (D - ro) < 0) by nra. nra.
  - intros K. apply Rmult_integral in K as [K|K]; [|lra]. apply Rmult_integral in K as [K|K]; [left|right]; lra.
  - intros [-> | ->]; ring.
Qed.
Lemma norm_axis_unit a : length a = 3%nat -> default_tol < vec_norm a -> exists n u v w, n = vec_norm a /\ 0 < n /\ normalize_axis a = [u; v; w] /\ u * u + v * v + w * w = 1 /\ a = [n * u; n * v; n * w].
Proof.
  intros Ha Ht. pose proof default_tol_pos as T. unfold normalize_axis.
  assert (Z : is_zero default_tol (vec_norm a) = false).
  { unfold is_zero, M_Tolerance.is_zero. destruct (Rleb _ _) eqn:Q; auto. apply Rleb_true in Q. rewrite Rabs_pos_eq in Q; lra. }
  rewrite Z. dest3. pose proof (norm3_sq x y z) as S. set (n := vec_norm [x; y; z]) in *. exists n. unfold vscale. cbn [map].
  do 3 eexists. split; [reflexivity|]. split; [lra|]. split; [reflexivity|]. split.
  - replace (/ n * x * (/ n * x) + / n * y * (/ n * y) + / n * z * (/ n * z)) with ((x * x + y * y + z * z) * (/ n * / n)) by ring. rewrite <- S. field. lra.
  - list_eq ltac:(field; lra).
Qed.
Lemma cylinder_dist u v w n p0 p1 p2 o0 o1 o2 t : u * u + v * v + w * w = 1 ->
  let d0 := p0 - o0 in let d1 := p1 - o1 in let d2 := p2 - o2 in
  edist [p0; p1; p2] (on_line [o0; o1; o2] [n * u; n * v; n * w] t) * edist [p0; p1; p2] (on_line [o0; o1; o2] [n * u; n * v; n * w] t) =
  (d0 * d0 + d1 * d1 + d2 * d2 - (d0 * u + d1 * v + d2 * w) * (d0 * u + d1 * v + d2 * w)) + (t * n - (d0 * u + d1 * v + d2 * w)) * (t * n - (d0 * u + d1 * v + d2 * w)).
Proof.
  intros U. cbv zeta. rewrite edist_sq. cbn [length map seq nth fold_right on_line].
  replace ((p0 - (o0 + t * (n * u))) * (p0 - (o0 + t * (n * u))) + ((p1 - (o1 + t * (n * v))) * (p1 - (o1 + t * (n * v))) + ((p2 - (o2 + t * (n * w))) * (p2 - (o2 + t * (n * w))) + 0)))
    with ((p0 - o0) * (p0 - o0) + (p1 - o1) * (p1 - o1) + (p2 - o2) * (p2 - o2) - 2 * t * n * ((p0 - o0) * u + (p1 - o1) * v + (p2 - o2) * w) + t * t * n * n * (u * u + v * v + w * w)) by ring.
  rewrite U. ring.
Qed.
Lemma cylinder_sign r o a f p : length o = 3%nat -> length a = 3%nat -> length p = 3%nat -> default_tol < vec_norm a -> cylinder r o a = Ret f ->
  (fval f p < 0 <-> exists t, edist p (on_line o a t) < r) /\
  (fval f p = 0 <-> (exists t, edist p (on_line o a t) = r) /\ forall t, r <= edist p (on_line o a t)).
Proof.
  intros Ho Ha Hp Ht H. destruct (norm_axis_unit a Ha Ht) as (n & u & v & w & _ & Hn & En & U & Ea). unfold cylinder in H. rewrite En in H. apply assert_ret_inv in H as [B <-]. rewrite Rltb_true in B.
  subst a. clear En Ha Ht. dest3. rename x into p0, y into p1, z into p2. rename x0 into o0, y0 into o1, z0 into o2.
  fn_red. pose proof (fun t => cylinder_dist u v w n p0 p1 p2 o0 o1 o2 t U) as D. cbv zeta in D.
  set (A := edist [p0; p1; p2]) in *. set (L := on_line [o0; o1; o2] [n * u; n * v; n * w]) in *.
  assert (P : forall t, 0 <= A (L t)) by (intros; apply edist_pos). clearbody A L.
  set (k := (p0 - o0) * u + (p1 - o1) * v + (p2 - o2) * w) in *. set (q := (p0 - o0) * (p0 - o0) + (p1 - o1) * (p1 - o1) + (p2 - o2) * (p2 - o2)) in *.
  replace (0 + (p0 - o0) * (p0 - o0) + (p1 - o1) * (p1 - o1) + (p2 - o2) * (p2 - o2)) with q by (unfold q; ring).
  replace (0 + (p0 - o0) * u + (p1 - o1) * v + (p2 - o2) * w) with k by (unfold k; ring). clearbody k q.
  assert (T0 : A (L (k / n)) * A (L (k / n)) = q - k * k). { rewrite D. replace (k / n * n - k) with 0 by (field; lra). ring. }
  assert (Ge : forall t, q - k * k <= A (L t) * A (L t)) by (intros t; rewrite D; pose proof (Rle_0_sqr (t * n - k)) as Q; unfold Rsqr in Q; lra).
  split; split.
  - intros K. exists (k / n). apply sq_lt; [auto|lra|]. lra.
  - intros [t K]. specialize (Ge t). apply sq_lt in K; [|auto|lra]. lra.
  - intros K. split.
    + exists (k / n). apply sq_eq; [auto|lra|]. lra.
    + intros t. apply Rnot_lt_le. intros K'. specialize (Ge t). apply sq_lt in K'; [|auto|lra]. lra.
  - intros [[t K] M]. specialize (Ge t). specialize (M (k / n)). rewrite K in Ge.
    assert (r * r <= A (L (k / n)) * A (L (k / n))) by nra. lra.
Qed.
Lemma plane_sign dim o n p : (dim = 2 \/ dim = 3)%nat -> length o = dim -> length n = dim -> length p = dim ->
  fval (plane dim o n) p = fold_right Rplus 0 (map (fun i => (nth i p 0 - nth i o 0) * nth i n 0) (seq 0 dim)).
Proof. intros [-> | ->] Ho Hn Hp; [dest2|dest3]; unfold plane; fn_red; ring. Qed.

(** ** Torus *)
Lemma cs3 a b c x y z : (a * x + b * y + c * z) * (a * x + b * y + c * z) <= (a * a + b * b + c * c) * (x * x + y * y + z * z).
Proof.
  pose proof (Rle_0_sqr (a * y - b * x)) as A. pose proof (Rle_0_sqr (a * z - c * x)) as B. pose proof (Rle_0_sqr (b * z - c * y)) as C. unfold Rsqr in *. nra.
Qed.
Lemma torus_sign R0 r0 c a f p : length c = 3%nat -> length a = 3%nat -> length p = 3%nat -> default_tol < vec_norm a -> torus R0 r0 c a = Ret f ->
  (fval f p < 0 <-> exists q, on_circle c a R0 q /\ edist p q < r0).
Proof.
  intros Hc Ha Hp Ht H. destruct (norm_axis_unit a Ha Ht) as (n & u & v & w & _ & Hn & En & U & Ea). unfold torus in H. rewrite En in H. apply assert_ret_inv in H as [B <-].
  apply andb_true_iff in B as [B1 B2]. rewrite Rltb_true in B1, B2. subst a. clear En Ha Ht. dest3. rename x into p0, y into p1, z into p2. rename x0 into c0, y0 into c1, z0 into c2.
  fn_red. remember (p0 - c0) as d0 eqn:Ed0. remember (p1 - c1) as d1 eqn:Ed1. remember (p2 - c2) as d2 eqn:Ed2.
  set (h := d0 * u + d1 * v + d2 * w). set (D := d0 * d0 + d1 * d1 + d2 * d2).
  replace (0 + d0 * d0 + d1 * d1 + d2 * d2) with D by (unfold D; ring). replace (0 + d0 * u + d1 * v + d2 * w) with h by (unfold h; ring).
  set (w0 := d0 - h * u). set (w1 := d1 - h * v). set (w2 := d2 - h * w). set (s := w0 * w0 + w1 * w1 + w2 * w2).
  assert (Hs : s + h * h = D).
  { unfold s, w0, w1, w2. replace ((d0 - h * u) * (d0 - h * u) + (d1 - h * v) * (d1 - h * v) + (d2 - h * w) * (d2 - h * w) + h * h)
      with (D - 2 * h * (d0 * u + d1 * v + d2 * w) + h * h * (u * u + v * v + w * w) + h * h) by (unfold D; ring). rewrite U. fold h. ring. }
  assert (Hw : w0 * u + w1 * v + w2 * w = 0).
  { unfold w0, w1, w2. replace ((d0 - h * u) * u + (d1 - h * v) * v + (d2 - h * w) * w) with (d0 * u + d1 * v + d2 * w - h * (u * u + v * v + w * w)) by ring. rewrite U. fold h. ring. }
  assert (Sp : 0 <= s) by (unfold s; nra). set (rho := sqrt s). assert (Rp : 0 <= rho) by apply sqrt_pos. assert (Rs : rho * rho = s) by (apply sqrt_sqrt; auto).
  assert (F : D * D - 2 * (R0 * R0 + r0 * r0) * D + 4 * (R0 * R0) * h * h + (R0 * R0 - r0 * r0) * (R0 * R0 - r0 * r0)
    = ((rho - R0) * (rho - R0) + h * h - r0 * r0) * ((rho + R0) * (rho + R0) + h * h - r0 * r0)) by (rewrite <- Hs, <- Rs; ring).
  rewrite F. assert (P2 : 0 < (rho + R0) * (rho + R0) + h * h - r0 * r0) by nra. set (Z := (rho + R0) * (rho + R0) + h * h - r0 * r0) in *.
  split.
  - intros K. assert (K1 : (rho - R0) * (rho - R0) + h * h - r0 * r0 < 0) by nra.
    assert (Rpos : 0 < rho). { destruct (Req_dec rho 0) as [E|E]; [|lra]. rewrite E in K1. nra. }
    set (k := R0 / rho). exists [c0 + k * w0; c1 + k * w1; c2 + k * w2]. split.
    + split; [reflexivity|]. split.
      * apply sq_eq; [apply edist_pos|lra|]. rewrite edist_sq. cbn [length map seq nth fold_right].
        replace ((c0 + k * w0 - c0) * (c0 + k * w0 - c0) + ((c1 + k * w1 - c1) * (c1 + k * w1 - c1) + ((c2 + k * w2 - c2) * (c2 + k * w2 - c2) + 0))) with (k * k * s) by (unfold s; ring).
        rewrite <- Rs. unfold k. field. lra.
      * cbn [map seq nth fold_right]. replace ((c0 + k * w0 - c0) * (n * u) + ((c1 + k * w1 - c1) * (n * v) + ((c2 + k * w2 - c2) * (n * w) + 0))) with (k * n * (w0 * u + w1 * v + w2 * w)) by ring.
        rewrite Hw. ring.
    + apply sq_lt; [apply edist_pos|lra|]. rewrite edist_sq. cbn [length map seq nth fold_right].
      replace ((p0 - (c0 + k * w0)) * (p0 - (c0 + k * w0)) + ((p1 - (c1 + k * w1)) * (p1 - (c1 + k * w1)) + ((p2 - (c2 + k * w2)) * (p2 - (c2 + k * w2)) + 0)))
        with (D - 2 * k * (d0 * w0 + d1 * w1 + d2 * w2) + k * k * s) by (unfold D, s; rewrite Ed0, Ed1, Ed2; ring).
      replace (d0 * w0 + d1 * w1 + d2 * w2) with s.
      2: { unfold s. replace d0 with (w0 + h * u) at 1 by (unfold w0; ring). replace d1 with (w1 + h * v) at 1 by (unfold w1; ring). replace d2 with (w2 + h * w) at 1 by (unfold w2; ring).
           transitivity (w0 * w0 + w1 * w1 + w2 * w2 + h * (w0 * u + w1 * v + w2 * w)); [rewrite Hw; ring|ring]. }
      rewrite <- Hs, <- Rs. replace (rho * rho + h * h - 2 * k * (rho * rho) + k * k * (rho * rho)) with ((rho - R0) * (rho - R0) + h * h) by (unfold k; field; lra). lra.
  - intros (q & (Lq & Eq & Oq) & K). destruct (len3 q Lq) as (q0 & q1 & q2 & ->). cbn [map seq nth fold_right] in Oq.
    apply sq_eq in Eq; [|apply edist_pos|lra]. rewrite edist_sq in Eq. cbn [length map seq nth fold_right] in Eq.
    apply sq_lt in K; [|apply edist_pos|lra]. rewrite edist_sq in K. cbn [length map seq nth fold_right] in K.
    remember (q0 - c0) as e0 eqn:Ee0. remember (q1 - c1) as e1 eqn:Ee1. remember (q2 - c2) as e2 eqn:Ee2.
    assert (O : e0 * u + e1 * v + e2 * w = 0). { apply (Rmult_eq_reg_l n); [|lra]. rewrite Rmult_0_r, <- Oq. ring. }
    assert (Eq' : e0 * e0 + e1 * e1 + e2 * e2 = R0 * R0) by lra.
    replace (p0 - q0) with (d0 - e0) in K by (rewrite Ed0, Ee0; ring). replace (p1 - q1) with (d1 - e1) in K by (rewrite Ed1, Ee1; ring). replace (p2 - q2) with (d2 - e2) in K by (rewrite Ed2, Ee2; ring).
    assert (W : w0 * e0 + w1 * e1 + w2 * e2 = d0 * e0 + d1 * e1 + d2 * e2).
    { transitivity (d0 * e0 + d1 * e1 + d2 * e2 - h * (e0 * u + e1 * v + e2 * w)); [unfold w0, w1, w2; ring|rewrite O; ring]. }
    assert (C : w0 * e0 + w1 * e1 + w2 * e2 <= rho * R0).
    { pose proof (cs3 w0 w1 w2 e0 e1 e2) as C. rewrite Eq' in C. fold s in C. rewrite <- Rs in C. assert (0 <= rho * R0) by nra. nra. }
    assert (K1 : (rho - R0) * (rho - R0) + h * h - r0 * r0 < 0).
    { assert (D - 2 * (d0 * e0 + d1 * e1 + d2 * e2) + R0 * R0 < r0 * r0) by (unfold D; lra). rewrite <- Hs, <- Rs in H. lra. }
    nra.
Qed.
(** ** Ellipsoid *)
Lemma frame2 e f o p0 p1 : orthonormal [e; f] -> exists u, length u = 2%nat /\ [p0; p1] = in_frame [nth 0 o 0; nth 1 o 0] [e; f] u.
Proof.
  intros H. destruct (H 0%nat 0%nat ltac:(simpl; lia) ltac:(simpl; lia)) as [Le E0]. destruct (H 1%nat 1%nat ltac:(simpl; lia) ltac:(simpl; lia)) as [Lf E1]. destruct (H 0%nat 1%nat ltac:(simpl; lia) ltac:(simpl; lia)) as [_ E2].
  cbn [nth length] in *. destruct (len2 e Le) as (a & b & ->). destruct (len2 f Lf) as (c & d & ->). unfold inner in *. cbn [length map seq nth fold_right Nat.eqb] in *.
  set (d0 := p0 - nth 0 o 0). set (d1 := p1 - nth 1 o 0). set (k := a * d - b * c).
  assert (K : k * k = 1). { unfold k. replace ((a * d - b * c) * (a * d - b * c)) with ((a * a + (b * b + 0)) * (c * c + (d * d + 0)) - (a * c + (b * d + 0)) * (a * c + (b * d + 0))) by ring. rewrite E0, E1, E2. ring. }
  exists [k * (d0 * d - d1 * c); k * (a * d1 - b * d0)]. split; [reflexivity|]. unfold in_frame. cbn [length map seq nth fold_right].
  list_eq ltac:(idtac).
  - transitivity (nth 0 o 0 + (k * k) * d0); [rewrite K; unfold d0; ring|unfold k; ring].
  - transitivity (nth 1 o 0 + (k * k) * d1); [rewrite K; unfold d1; ring|unfold k; ring].
Qed.
Lemma frame3 e f g o p0 p1 p2 : orthonormal [e; f; g] -> exists u, length u = 3%nat /\ [p0; p1; p2] = in_frame [nth 0 o 0; nth 1 o 0; nth 2 o 0] [e; f; g] u.
Proof.
  intros H. destruct (H 0%nat 0%nat ltac:(simpl; lia) ltac:(simpl; lia)) as [Le E00]. destruct (H 1%nat 1%nat ltac:(simpl; lia) ltac:(simpl; lia)) as [Lf E11]. destruct (H 2%nat 2%nat ltac:(simpl; lia) ltac:(simpl; lia)) as [Lg E22].
  destruct (H 0%nat 1%nat ltac:(simpl; lia) ltac:(simpl; lia)) as [_ E01]. destruct (H 0%nat 2%nat ltac:(simpl; lia) ltac:(simpl; lia)) as [_ E02]. destruct (H 1%nat 2%nat ltac:(simpl; lia) ltac:(simpl; lia)) as [_ E12].
  cbn [nth length] in *. destruct (len3 e Le) as (a0 & a1 & a2 & ->). destruct (len3 f Lf) as (b0 & b1 & b2 & ->). destruct (len3 g Lg) as (c0 & c1 & c2 & ->). unfold inner in *. cbn [length map seq nth fold_right Nat.eqb] in *.
  set (d0 := p0 - nth 0 o 0). set (d1 := p1 - nth 1 o 0). set (d2 := p2 - nth 2 o 0).
  set (k := a0 * (b1 * c2 - b2 * c1) - a1 * (b0 * c2 - b2 * c0) + a2 * (b0 * c1 - b1 * c0)).
  assert (K : k * k = 1).
  { transitivity ((a0 * a0 + (a1 * a1 + (a2 * a2 + 0))) * ((b0 * b0 + (b1 * b1 + (b2 * b2 + 0))) * (c0 * c0 + (c1 * c1 + (c2 * c2 + 0))) - (b0 * c0 + (b1 * c1 + (b2 * c2 + 0))) * (b0 * c0 + (b1 * c1 + (b2 * c2 + 0))))
      - (a0 * b0 + (a1 * b1 + (a2 * b2 + 0))) * ((a0 * b0 + (a1 * b1 + (a2 * b2 + 0))) * (c0 * c0 + (c1 * c1 + (c2 * c2 + 0))) - (b0 * c0 + (b1 * c1 + (b2 * c2 + 0))) * (a0 * c0 + (a1 * c1 + (a2 * c2 + 0))))
      + (a0 * c0 + (a1 * c1 + (a2 * c2 + 0))) * ((a0 * b0 + (a1 * b1 + (a2 * b2 + 0))) * (b0 * c0 + (b1 * c1 + (b2 * c2 + 0))) - (b0 * b0 + (b1 * b1 + (b2 * b2 + 0))) * (a0 * c0 + (a1 * c1 + (a2 * c2 + 0))))).
    - unfold k. ring.
    - rewrite E00, E11, E22, E01, E02, E12. ring. }
  exists [k * (d0 * (b1 * c2 - b2 * c1) - d1 * (b0 * c2 - b2 * c0) + d2 * (b0 * c1 - b1 * c0));
          k * (a0 * (d1 * c2 - d2 * c1) - a1 * (d0 * c2 - d2 * c0) + a2 * (d0 * c1 - d1 * c0));
          k * (a0 * (b1 * d2 - b2 * d1) - a1 * (b0 * d2 - b2 * d0) + a2 * (b0 * d1 - b1 * d0))]. split; [reflexivity|]. unfold in_frame. cbn [length map seq nth fold_right].
  list_eq ltac:(idtac).
  - transitivity (nth 0 o 0 + (k * k) * d0); [rewrite K; unfold d0; ring|unfold k; ring].
  - transitivity (nth 1 o 0 + (k * k) * d1); [rewrite K; unfold d1; ring|unfold k; ring].
  - transitivity (nth 2 o 0 + (k * k) * d2); [rewrite K; unfold d2; ring|unfold k; ring].
Qed.
Lemma ell_value dim sa sys f u : (dim = 2 \/ dim = 3)%nat -> length sa = dim -> length (r_origin sys) = dim -> length (r_basis sys) = dim -> orthonormal (r_basis sys) ->
  ellipsoid dim sa sys = Ret f -> length u = dim ->
  fval f (in_frame (r_origin sys) (r_basis sys) u) = fold_right Rplus 0 (map (fun i => (nth i u 0 / nth i sa 0) * (nth i u 0 / nth i sa 0)) (seq 0 dim)) - 1.
Proof.
  intros Hd H1 H2 H3 H4 H Hu. pose proof (ell_nz _ _ _ _ H) as N. apply assert_ret_inv in H as [_ <-]. destruct sys as [o b]. simpl r_origin in *. simpl r_basis in *.
  cbn [r_origin r_basis fval]. destruct Hd as [-> | ->].
  - pose proof (N 0%nat ltac:(lia)) as N0. pose proof (N 1%nat ltac:(lia)) as N1. clear N.
    destruct (lenl2 b H3) as (e & g & ->). destruct (H4 0%nat 0%nat ltac:(simpl; lia) ltac:(simpl; lia)) as [Le E0]. destruct (H4 1%nat 1%nat ltac:(simpl; lia) ltac:(simpl; lia)) as [Lf E1]. destruct (H4 0%nat 1%nat ltac:(simpl; lia) ltac:(simpl; lia)) as [_ E2].
    cbn [nth length] in *. clear H4 H3. destruct (len2 e Le) as (a0 & a1 & ->). destruct (len2 g Lf) as (b0 & b1 & ->). destruct (len2 u Hu) as (x & y & ->). destruct (len2 sa H1) as (x1 & y1 & ->). destruct (len2 o H2) as (o0 & o1 & ->). unfold inner in *. cbn [length map seq nth fold_right Nat.eqb in_frame] in *.
    unfold in_frame. cbn [length map seq nth fold_right]. fn_red.
    match goal with |- _ + ?P * ?P + ?Q * ?Q = _ => replace P with ((x * (a0 * a0 + (a1 * a1 + 0)) + y * (a0 * b0 + (a1 * b1 + 0))) / x1) by (field; auto);
      replace Q with ((x * (a0 * b0 + (a1 * b1 + 0)) + y * (b0 * b0 + (b1 * b1 + 0))) / y1) by (field; auto) end.
    rewrite E0, E1, E2. field; auto.
  - pose proof (N 0%nat ltac:(lia)) as N0. pose proof (N 1%nat ltac:(lia)) as N1. pose proof (N 2%nat ltac:(lia)) as N2. clear N.
    destruct (lenl3 b H3) as (e & g & k & ->). destruct (H4 0%nat 0%nat ltac:(simpl; lia) ltac:(simpl; lia)) as [Le E00]. destruct (H4 1%nat 1%nat ltac:(simpl; lia) ltac:(simpl; lia)) as [Lf E11]. destruct (H4 2%nat 2%nat ltac:(simpl; lia) ltac:(simpl; lia)) as [Lk E22].
    destruct (H4 0%nat 1%nat ltac:(simpl; lia) ltac:(simpl; lia)) as [_ E01]. destruct (H4 0%nat 2%nat ltac:(simpl; lia) ltac:(simpl; lia)) as [_ E02]. destruct (H4 1%nat 2%nat ltac:(simpl; lia) ltac:(simpl; lia)) as [_ E12].
    cbn [nth length] in *. clear H4 H3. destruct (len3 e Le) as (a0 & a1 & a2 & ->). destruct (len3 g Lf) as (b0 & b1 & b2 & ->). destruct (len3 k Lk) as (c0 & c1 & c2 & ->). destruct (len3 u Hu) as (x & y & z & ->). destruct (len3 sa H1) as (x1 & y1 & z1 & ->). destruct (len3 o H2) as (o0 & o1 & o2 & ->). unfold inner in *. cbn [length map seq nth fold_right Nat.eqb in_frame] in *.
    unfold in_frame. cbn [length map seq nth fold_right]. fn_red.
    match goal with |- _ + ?P * ?P + ?Q * ?Q + ?S * ?S = _ =>
      replace P with ((x * (a0 * a0 + (a1 * a1 + (a2 * a2 + 0))) + y * (a0 * b0 + (a1 * b1 + (a2 * b2 + 0))) + z * (a0 * c0 + (a1 * c1 + (a2 * c2 + 0)))) / x1) by (field; auto);
      replace Q with ((x * (a0 * b0 + (a1 * b1 + (a2 * b2 + 0))) + y * (b0 * b0 + (b1 * b1 + (b2 * b2 + 0))) + z * (b0 * c0 + (b1 * c1 + (b2 * c2 + 0)))) / y1) by (field; auto);
      replace S with ((x * (a0 * c0 + (a1 * c1 + (a2 * c2 + 0))) + y * (b0 * c0 + (b1 * c1 + (b2 * c2 + 0))) + z * (c0 * c0 + (c1 * c1 + (c2 * c2 + 0)))) / z1) by (field; auto) end.
    rewrite E00, E11, E22, E01, E02, E12. field; auto.
Qed.
Lemma ell_sign dim sa sys f p : (dim = 2 \/ dim = 3)%nat -> length sa = dim -> length (r_origin sys) = dim -> length (r_basis sys) = dim -> orthonormal (r_basis sys) ->
  ellipsoid dim sa sys = Ret f -> length p = dim -> exists u, length u = dim /\ p = in_frame (r_origin sys) (r_basis sys) u /\
  fval f p = fold_right Rplus 0 (map (fun i => (nth i u 0 / nth i sa 0) * (nth i u 0 / nth i sa 0)) (seq 0 dim)) - 1.
Proof.
  intros Hd H1 H2 H3 H4 H Hp.
  assert (E : exists u, length u = dim /\ p = in_frame (r_origin sys) (r_basis sys) u).
  { destruct sys as [o b]. cbn [r_origin r_basis] in *. destruct Hd as [-> | ->].
    - destruct (lenl2 b H3) as (e & g & ->). destruct (frame2 e g o (nth 0 p 0) (nth 1 p 0) H4) as (u & Lu & E). exists u. split; auto. dest2. exact E.
    - destruct (lenl3 b H3) as (e & g & k & ->). destruct (frame3 e g k o (nth 0 p 0) (nth 1 p 0) (nth 2 p 0) H4) as (u & Lu & E). exists u. split; auto. dest3. exact E. }
  destruct E as (u & Lu & E). exists u. split; auto. split; auto. rewrite E. eapply ell_value; eauto.
Qed.
(** ** Wrong derivatives of the primitives *)
From Verif Require Import L_Funcs2.
Lemma annulus_grad_wrong ri ro c f p : length c = 2%nat -> annulus ri ro c = Ret f -> length p = 2%nat -> p <> c -> ~ has_gradient 2 (fval f) p (fgrad f p).
Proof.
  intros Hc H Hp N K. apply N. apply (annulus_grad_diff ri ro c f p); auto. apply (hg_unique 2 (fval f) p); auto. apply (annulus_grad_true ri ro c f Hc H p Hp).
Qed.
Lemma annulus_hess_wrong ri ro c f p : length c = 2%nat -> annulus ri ro c = Ret f -> length p = 2%nat -> ~ has_hessian 2 (fval f) p (fhess f p).
Proof.
  intros Hc H Hp K. pose proof (hh_unique 2 _ _ _ _ (or_introl eq_refl) K (annulus_hess ri ro c f Hc H p Hp) Hp) as E.
  apply assert_ret_inv in H as [B <-]. apply andb_true_iff in B as [B1 B2]. rewrite Rltb_true in B1, B2.
  apply (f_equal (fun l => nth 0 l 0)) in E. cbn [map seq nth Nat.eqb fhess] in E. nra.
Qed.
Lemma cylinder_hess_wrong r o a f p : length o = 3%nat -> length a = 3%nat -> default_tol < vec_norm a -> cylinder r o a = Ret f -> length p = 3%nat -> ~ has_hessian 3 (fval f) p (fhess f p).
Proof.
  intros Ho Ha Ht H Hp K. pose proof (hh_unique 3 _ _ _ _ (or_intror eq_refl) K (cylinder_hess r o a f p Ho Ha H Hp) Hp) as E.
  destruct (norm_axis_unit a Ha Ht) as (n & u & v & w & _ & Hn & En & U & Ea). rewrite En in E. unfold cylinder in H. apply assert_ret_inv in H as [_ <-].
  pose proof (f_equal (fun l => nth 0 l 0) E) as E0. pose proof (f_equal (fun l => nth 3 l 0) E) as E3. pose proof (f_equal (fun l => nth 5 l 0) E) as E5.
  cbn [fhess map seq nth flat_map Nat.sub app] in E0, E3, E5. unfold vx in *. cbn [nth] in *. lra.
Qed.
Lemma dl_hess_wrong : ~ has_hessian 3 (fval (dim_linear 3 [0; 0; 0; 0; 0; 0; 1; 0])) [0; 0; 0] (fhess (dim_linear 3 [0; 0; 0; 0; 0; 0; 1; 0]) [0; 0; 0]).
Proof.
  intros K. pose proof (hh_unique 3 _ _ _ _ (or_intror eq_refl) K (dl_hess3 [0; 0; 0; 0; 0; 0; 1; 0] [0; 0; 0] eq_refl) eq_refl) as E.
  apply (f_equal (fun l => nth 4 l 0)) in E. revert E. unfold dl_true_hess3, dim_linear. cbn [fhess nth]. unfold vx. cbn [nth]. lra.
Qed.
