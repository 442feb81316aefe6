From Coq Require Import Reals List Lia Lra.
From Coquelicot Require Import Coquelicot.
From Verif Require Import M_Tpms L_Real S_Affine L_Affine L_Deriv.
Import ListNotations.
Open Scope R_scope.

Ltac tp_unfold := unfold schoen_eval, schoen_grad, schoen_hess, schoeniwp_eval, schoeniwp_grad, schoeniwp_hess, schoenfrd_eval, schoenfrd_grad, schoenfrd_hess,
  fischerkochs_eval, fischerkochs_grad, fischerkochs_hess, schwarzdiamond_eval, schwarzdiamond_grad, schwarzdiamond_hess,
  schwarzprimitive_eval, schwarzprimitive_grad, schwarzprimitive_hess.
Ltac tp_red := cbn [fval fgrad fhess tpms_func tpms extend_to_3D]; tp_unfold; cbv zeta; unfold tt4, tk4, tt2, tk2, vx; cbn [nth extend_to_3D].


Ltac tp3 := tp_red; apply hg3; intros X Y Z dx dy dz HX HY HZ DX DY DZ; cbn [nth]; curve_step; ring.
Ltac tp2 := tp_red; apply hg2; intros X Y dx dy HX HY DX DY; cbn [nth]; curve_step; ring.
Lemma tpms_grad3 k m z p : length m = 3%nat -> length p = 3%nat -> (k = KSchoenIWP -> nth 0 m 0 = nth 1 m 0) ->
  has_gradient 3 (fval (tpms_func k 3 m z)) p (fgrad (tpms_func k 3 m z) p).
Proof.
  intros Hm Hp Hk. destruct (len3 m Hm) as (m0 & m1 & m2 & ->). destruct (len3 p Hp) as (x & y & w & ->).
  destruct k; try tp3. specialize (Hk eq_refl). cbn in Hk. subst. tp3.
Qed.
Lemma tpms_grad2 k m z p : length m = 3%nat -> length p = 2%nat -> (k = KSchoenIWP -> nth 0 m 0 = nth 1 m 0) ->
  has_gradient 2 (fval (tpms_func k 2 m z)) p (fgrad (tpms_func k 2 m z) p).
Proof.
  intros Hm Hp Hk. destruct (len3 m Hm) as (m0 & m1 & m2 & ->). destruct (len2 p Hp) as (x & y & ->).
  destruct k; try tp2. specialize (Hk eq_refl). cbn in Hk. subst. tp2.
Qed.
(** The right gradient of SchoenIWP. *)
Definition iwp_true_grad (m p : list R) : list R :=
  let k4 := tk4 m in let t2 := tt2 m p in let t4 := tt4 m p in
  [(sin (t4 0%nat) - sin (t2 0%nat) * (cos (t2 1%nat) + cos (t2 2%nat))) * k4 0%nat;
   (sin (t4 1%nat) - sin (t2 1%nat) * (cos (t2 0%nat) + cos (t2 2%nat))) * k4 1%nat;
   (sin (t4 2%nat) - sin (t2 2%nat) * (cos (t2 0%nat) + cos (t2 1%nat))) * k4 2%nat].
Lemma iwp_grad3 m z p : length m = 3%nat -> length p = 3%nat -> has_gradient 3 (fval (tpms_func KSchoenIWP 3 m z)) p (iwp_true_grad m p).
Proof.
  intros Hm Hp. destruct (len3 m Hm) as (m0 & m1 & m2 & ->). destruct (len3 p Hp) as (x & y & w & ->). unfold iwp_true_grad. tp3.
Qed.
Lemma iwp_grad2 m z p : length m = 3%nat -> length p = 2%nat -> has_gradient 2 (fval (tpms_func KSchoenIWP 2 m z)) p (firstn 2 (iwp_true_grad m (extend_to_3D 2 z p))).
Proof.
  intros Hm Hp. destruct (len3 m Hm) as (m0 & m1 & m2 & ->). destruct (len2 p Hp) as (x & y & ->). unfold iwp_true_grad. cbn [firstn]. tp2.
Qed.
Definition true_grad (k : tpms_kind) (dim : nat) (m : list R) (z : R) (p : list R) : list R :=
  match k with KSchoenIWP => firstn dim (iwp_true_grad m (extend_to_3D dim z p)) | _ => fgrad (tpms_func k dim m z) p end.
Lemma true_grad3 k m z p : length m = 3%nat -> length p = 3%nat -> has_gradient 3 (fval (tpms_func k 3 m z)) p (true_grad k 3 m z p).
Proof. intros Hm Hp. destruct k; try (apply tpms_grad3; auto; discriminate). apply iwp_grad3; auto. Qed.
Lemma true_grad2 k m z p : length m = 3%nat -> length p = 2%nat -> has_gradient 2 (fval (tpms_func k 2 m z)) p (true_grad k 2 m z p).
Proof. intros Hm Hp. destruct k; try (apply tpms_grad2; auto; discriminate). apply iwp_grad2; auto. Qed.

(** The right Hessian of Schoen in 3D. *)
Definition schoen_true_hess (m p : list R) : list R :=
  let h := schoen_hess 3 m p in
  [nth 0 h 0; nth 1 h 0; tk2 m 0 * tk2 m 2 * (- cos (tt2 m p 2) * sin (tt2 m p 0)); nth 3 h 0; nth 4 h 0; nth 5 h 0].
Definition true_hess (k : tpms_kind) (dim : nat) (m : list R) (z : R) (p : list R) : list R :=
  match k, dim with KSchoen, 3%nat => schoen_true_hess m p | _, _ => fhess (tpms_func k dim m z) p end.
Ltac hess_row H := apply H; unfold true_grad, true_hess, schoen_true_hess, iwp_true_grad; cbn [map seq sym_pos Nat.min Nat.max nth firstn].
Lemma tpms_hess3 k m z p : length m = 3%nat -> length p = 3%nat -> has_hessian 3 (fval (tpms_func k 3 m z)) p (true_hess k 3 m z p).
Proof.
  intros Hm Hp. split; [destruct k; reflexivity|]. exists (true_grad k 3 m z). split; [intros q Hq; apply true_grad3; auto|].
  destruct (len3 m Hm) as (m0 & m1 & m2 & ->). destruct (len3 p Hp) as (x & y & w & ->).
  intros i Hi. assert (E : (i = 0 \/ i = 1 \/ i = 2)%nat) by lia.
  destruct E as [-> | [-> | ->]]; destruct k; cbn [map seq sym_pos Nat.min Nat.max Nat.add]; unfold true_grad, true_hess, schoen_true_hess, iwp_true_grad; cbn [firstn]; tp3.
Qed.
Lemma tpms_hess2 k m z p : length m = 3%nat -> length p = 2%nat -> has_hessian 2 (fval (tpms_func k 2 m z)) p (fhess (tpms_func k 2 m z) p).
Proof.
  intros Hm Hp. split; [destruct k; reflexivity|]. exists (true_grad k 2 m z). split; [intros q Hq; apply true_grad2; auto|].
  destruct (len3 m Hm) as (m0 & m1 & m2 & ->). destruct (len2 p Hp) as (x & y & ->).
  intros i Hi. assert (E : (i = 0 \/ i = 1)%nat) by lia.
  destruct E as [-> | ->]; destruct k; cbn [map seq sym_pos Nat.min Nat.max Nat.add]; unfold true_grad, iwp_true_grad; cbn [firstn]; tp2.
Qed.

(** Periodicity. *)
Lemma sin_per t : sin (t + 2 * PI) = sin t.
Proof. rewrite sin_plus, sin_2PI, cos_2PI. ring. Qed.
Lemma cos_per t : cos (t + 2 * PI) = cos t.
Proof. rewrite cos_plus, sin_2PI, cos_2PI. ring. Qed.
Lemma sin_per2 t : sin (t + 2 * (2 * PI)) = sin t.
Proof. replace (t + 2 * (2 * PI)) with (t + 2 * PI + 2 * PI) by ring. now rewrite !sin_per. Qed.
Lemma cos_per2 t : cos (t + 2 * (2 * PI)) = cos t.
Proof. replace (t + 2 * (2 * PI)) with (t + 2 * PI + 2 * PI) by ring. now rewrite !cos_per. Qed.
Ltac shift m x := replace (2 * PI * m * (x + / m)) with (2 * PI * m * x + 2 * PI) by (field; auto);
  replace (2 * (2 * PI * m * x + 2 * PI)) with (2 * (2 * PI * m * x) + 2 * (2 * PI)) by ring; rewrite ?sin_per, ?cos_per, ?sin_per2, ?cos_per2; reflexivity.
Lemma tpms_period3 k m z p i : length m = 3%nat -> length p = 3%nat -> (i < 3)%nat -> nth i m 0 <> 0 ->
  fval (tpms_func k 3 m z) (map (fun j => if Nat.eqb j i then nth j p 0 + / nth i m 0 else nth j p 0) (seq 0 3)) = fval (tpms_func k 3 m z) p.
Proof.
  intros Hm Hp Hi Hn. destruct (len3 m Hm) as (m0 & m1 & m2 & ->). destruct (len3 p Hp) as (x & y & w & ->).
  assert (E : (i = 0 \/ i = 1 \/ i = 2)%nat) by lia.
  destruct E as [-> | [-> | ->]]; cbn [nth map seq Nat.eqb] in *; destruct k; tp_red; first [shift m0 x|shift m1 y|shift m2 w].
Qed.
Lemma tpms_period2 k m z p i : length m = 3%nat -> length p = 2%nat -> (i < 2)%nat -> nth i m 0 <> 0 ->
  fval (tpms_func k 2 m z) (map (fun j => if Nat.eqb j i then nth j p 0 + / nth i m 0 else nth j p 0) (seq 0 2)) = fval (tpms_func k 2 m z) p.
Proof.
  intros Hm Hp Hi Hn. destruct (len3 m Hm) as (m0 & m1 & m2 & ->). destruct (len2 p Hp) as (x & y & ->).
  assert (E : (i = 0 \/ i = 1)%nat) by lia.
  destruct E as [-> | ->]; cbn [nth map seq Nat.eqb] in *; destruct k; tp_red; first [shift m0 x|shift m1 y].
Qed.

(** Wrong derivatives. *)
Lemma iwp_grad_wrong : forall z, ~ has_gradient 3 (fval (tpms_func KSchoenIWP 3 [1; 2; 1] z)) [0; / 8; 0] (fgrad (tpms_func KSchoenIWP 3 [1; 2; 1] z) [0; / 8; 0]).
Proof.
  intros z H. pose proof (hg_unique _ _ _ _ _ H (iwp_grad3 [1; 2; 1] z [0; / 8; 0] eq_refl eq_refl) eq_refl) as E.
  apply (f_equal (fun l => nth 1 l 0)) in E. revert E. unfold iwp_true_grad. tp_red.
  replace (2 * PI * 1 * 0) with 0 by ring. replace (2 * PI * 2 * / 8) with (PI / 2) by field. replace (2 * (PI / 2)) with PI by field.
  rewrite sin_PI, sin_PI2, cos_0. pose proof PI_RGT_0. lra.
Qed.
Lemma iwp_grad_wrong2 : forall z, ~ has_gradient 2 (fval (tpms_func KSchoenIWP 2 [1; 2; 1] z)) [0; / 8] (fgrad (tpms_func KSchoenIWP 2 [1; 2; 1] z) [0; / 8]) \/ cos (2 * PI * 1 * z) = - (1).
Proof.
  intros z. destruct (Req_dec (cos (2 * PI * 1 * z)) (- (1))) as [C|C]; [right; auto|left].
  intros H. pose proof (hg_unique _ _ _ _ _ H (iwp_grad2 [1; 2; 1] z [0; / 8] eq_refl eq_refl) eq_refl) as E.
  apply (f_equal (fun l => nth 1 l 0)) in E. revert E. unfold iwp_true_grad. cbn [firstn]. tp_red.
  replace (2 * PI * 1 * 0) with 0 by ring. replace (2 * PI * 2 * / 8) with (PI / 2) by field. replace (2 * (PI / 2)) with PI by field.
  rewrite sin_PI, sin_PI2, cos_0. pose proof PI_RGT_0. intros E. apply C. assert (K : PI * (1 + cos (2 * PI * 1 * z)) = 0) by lra.
  apply Rmult_integral in K. destruct K; lra.
Qed.
Lemma schoen_hess_wrong : forall z, ~ has_hessian 3 (fval (tpms_func KSchoen 3 [1; 1; 1] z)) [/ 4; 0; 0] (fhess (tpms_func KSchoen 3 [1; 1; 1] z) [/ 4; 0; 0]).
Proof.
  intros z H. pose proof (hh_unique 3 _ _ _ _ (or_intror eq_refl) H (tpms_hess3 KSchoen [1; 1; 1] z [/ 4; 0; 0] eq_refl eq_refl) eq_refl) as E.
  apply (f_equal (fun l => nth 2 l 0)) in E. revert E. unfold true_hess, schoen_true_hess. cbn [nth]. tp_red.
  replace (2 * PI * 1 * 0) with 0 by ring. replace (2 * PI * 1 * / 4) with (PI / 2) by field.
  rewrite sin_0, sin_PI2, cos_0. pose proof PI_RGT_0. nra.
Qed.
