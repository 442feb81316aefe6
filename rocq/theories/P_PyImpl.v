(** C158: the solids of the Python constructors. C159: arithmetic and transformation of functions made in Python. *)
From Coq Require Import Reals List Lia Lra Bool Arith.
From Verif Require Import M_Bzr S_Poly S_Affine S_Funcs M_PyImpl S_PyImpl L_Real L_Affine L_FuncsSign P_Bzr P_Funcs P_Poly P_Affine.
Import ListNotations.
Local Close Scope Z_scope. Local Close Scope nat_scope. Local Open Scope R_scope.

(** Whatever the version chosen, the function has the values of the plain one. *)
Lemma choose_values dim b q f : same_function dim (Ret f) q -> has_values (choose dim b q (Ret f)) dim (fval f).
Proof.
  intros [(A & _)|(f' & p & E & -> & H)]; [discriminate|]. assert (f' = f) as -> by congruence. destruct b; cbn [choose bzr plain bind].
  - eexists. split; [reflexivity|]. split; [reflexivity|exact H].
  - eexists. split; [reflexivity|]. split; reflexivity.
Qed.
Lemma choose_values' dim b q o f : same_function dim o q -> o = Ret f -> has_values (choose dim b q o) dim (fval f).
Proof. intros H ->. apply choose_values, H. Qed.
Lemma values_describe o dim v P : has_values o dim v -> (forall p, length p = dim -> (v p < 0 <-> P p)) -> describes o dim P.
Proof. intros (f & E & D & V) H. exists f. split; [exact E|]. split; [exact D|]. intros p Hp. rewrite (V p Hp). apply H, Hp. Qed.
Lemma assert_true b {A} (k : outcome A) : b = true -> assert_ b k = k.
Proof. intros ->. reflexivity. Qed.
Lemma assert_false b {A} (k : outcome A) : b = false -> assert_ b k = Abort.
Proof. intros ->. reflexivity. Qed.
Lemma sized_ok n a k : length a = n -> sized n a k = k.
Proof. intros H. unfold sized. rewrite (proj2 (Nat.eqb_eq _ _) H). reflexivity. Qed.
Lemma sized_bad n a k : length a <> n -> sized n a k = Abort.
Proof. intros H. unfold sized. rewrite (proj2 (Nat.eqb_neq _ _) H). reflexivity. Qed.

Lemma sphere_ret dim r c : 0 < r -> exists f, sphere dim r c = Ret f.
Proof. intros H. unfold sphere. rewrite (proj2 (Rltb_true 0 r) H). eexists; reflexivity. Qed.
Lemma ball_case dim r c b : (dim = 2 \/ dim = 3)%nat -> 0 < r -> length c = dim ->
  describes (choose dim b (sphere_bzr dim r c) (sphere dim r c)) dim (fun p => edist p c < r).
Proof.
  intros Hd Hr Hc. destruct (sphere_ret dim r c Hr) as (f & E). eapply values_describe; [apply (choose_values' dim b _ _ f (C65_sphere dim r c Hd Hc) E)|].
  intros p Hp. exact (proj1 (proj1 C78_solids dim r c f p Hd Hc Hp E)).
Qed.
(** Disks and spheres. *)
Theorem C158_disk : forall r c b, 
  (0 < r -> opt_len 2 c -> describes (create_disk r c b) 2 (fun p => edist p (default [0; 0] c) < r))
  /\ (~ (0 < r /\ opt_len 2 c) -> create_disk r c b = Abort).
Proof.
  intros r c b. unfold create_disk. split.
  - intros Hr Hc. rewrite assert_true by (apply Rltb_true, Hr). destruct c as [c|]; cbn [default opt_len] in *.
    + rewrite assert_true by (apply Nat.eqb_eq, Hc). cbn [cpp_call]. rewrite sized_ok by exact Hc. apply ball_case; auto.
    + cbn [cpp_call repeat]. apply ball_case; auto.
  - intros N. destruct (Rlt_dec 0 r) as [Hr|Hr]; [|apply assert_false, Rltb_false; lra]. rewrite assert_true by (apply Rltb_true, Hr). destruct c as [c|]; cbn [opt_len] in N; [|tauto].
    apply assert_false, Nat.eqb_neq. intros Hc. tauto.
Qed.
Theorem C158_sphere : forall r c b, 
  (0 < r -> opt_len 3 c -> describes (create_sphere r c b) 3 (fun p => edist p (default [0; 0; 0] c) < r))
  /\ (~ (0 < r /\ opt_len 3 c) -> create_sphere r c b = Abort).
Proof.
  intros r c b. unfold create_sphere. split.
  - intros Hr Hc. rewrite assert_true by (apply Rltb_true, Hr). destruct c as [c|]; cbn [default opt_len] in *.
    + rewrite assert_true by (apply Nat.eqb_eq, Hc). cbn [cpp_call]. rewrite sized_ok by exact Hc. apply ball_case; auto.
    + cbn [cpp_call repeat]. apply ball_case; auto.
  - intros N. destruct (Rlt_dec 0 r) as [Hr|Hr]; [|apply assert_false, Rltb_false; lra]. rewrite assert_true by (apply Rltb_true, Hr). destruct c as [c|]; cbn [opt_len] in N; [|tauto].
    apply assert_false, Nat.eqb_neq. intros Hc. tauto.
Qed.
(** Annuli. *)
Theorem C158_annulus : forall ri ro c b, 
  (0 < ri < ro -> opt_len 2 c -> describes (create_annulus ri ro c b) 2 (fun p => ri < edist p (default [0; 0] c) < ro))
  /\ (~ (0 < ri < ro /\ opt_len 2 c) -> create_annulus ri ro c b = Abort).
Proof.
  assert (G : forall ri ro c b, 0 < ri < ro -> length c = 2%nat -> describes (choose 2 b (annulus_bzr ri ro c) (annulus ri ro c)) 2 (fun p => ri < edist p c < ro)).
  { intros ri ro c b H Hc. assert (E : exists f, annulus ri ro c = Ret f). { unfold annulus. rewrite (proj2 (Rltb_true 0 ri)) by lra. rewrite (proj2 (Rltb_true ri ro)) by lra. eexists; reflexivity. }
    destruct E as (f & E). eapply values_describe; [apply (choose_values' 2 b _ _ f (C65_annulus ri ro c Hc) E)|]. intros p Hp. exact (proj1 (proj1 (proj2 C78_solids) ri ro c f p Hc Hp E)). }
  assert (B : forall ri ro c b, ~ 0 < ri < ro -> choose 2 b (annulus_bzr ri ro c) (annulus ri ro c) = Abort).
  { intros ri ro c b H. assert (E : Rltb 0 ri && Rltb ri ro = false). { destruct (Rltb 0 ri) eqn:E1; [|reflexivity]. destruct (Rltb ri ro) eqn:E2; [|reflexivity]. apply Rltb_true in E1, E2. exfalso; apply H; split; assumption. }
    unfold annulus_bzr, annulus. rewrite E. destruct b; reflexivity. }
  intros ri ro c b. unfold create_annulus. split.
  - intros H Hc. rewrite !assert_true by (apply Rltb_true; lra). destruct c as [c|]; cbn [default opt_len] in *.
    + rewrite assert_true by (apply Nat.eqb_eq, Hc). cbn [cpp_call]. rewrite sized_ok by exact Hc. apply G; auto.
    + cbn [cpp_call]. apply G; auto.
  - intros N. destruct (Rltb 0 ri) eqn:E1; [|reflexivity]. destruct (Rltb 0 ro) eqn:E2; [|reflexivity]. cbn [assert_]. destruct c as [c|]; cbn [opt_len] in N.
    + destruct (Nat.eqb_spec (length c) 2) as [L|L]; [|reflexivity]. cbn [assert_ cpp_call]. rewrite sized_ok by exact L. apply B. tauto.
    + cbn [cpp_call]. apply B. tauto.
Qed.
(** Cylinders: the points at less than the radius of the line through the origin along the axis (z by default); any axis that is not shorter than the tolerance. *)
Theorem C158_cylinder : forall r o a b, 
  (0 < r -> length o = 3%nat -> opt_len 3 a -> default_tol < vec_norm (default [0; 0; 1] a) ->
     describes (create_cylinder r o a b) 3 (fun p => exists t, edist p (on_line o (default [0; 0; 1] a) t) < r))
  /\ (~ (0 < r /\ length o = 3%nat /\ opt_len 3 a) -> create_cylinder r o a b = Abort).
Proof.
  assert (G : forall r o a b, 0 < r -> length o = 3%nat -> length a = 3%nat -> default_tol < vec_norm a ->
    describes (choose 3 b (cylinder_bzr r o a) (cylinder r o a)) 3 (fun p => exists t, edist p (on_line o a t) < r)).
  { intros r o a b Hr Ho Ha Ht. assert (E : exists f, cylinder r o a = Ret f) by (unfold cylinder; rewrite (proj2 (Rltb_true 0 r) Hr); eexists; reflexivity).
    destruct E as (f & E). eapply values_describe; [apply (choose_values' 3 b _ _ f (C65_cylinder_partial r o a Ho Ha Ht) E)|]. intros p Hp.
    exact (proj1 (proj1 (proj2 (proj2 C78_solids)) r o a f p Ho Ha Hp Ht E)). }
  intros r o a b. unfold create_cylinder. split.
  - intros Hr Ho Ha Ht. rewrite assert_true by (apply Nat.eqb_eq, Ho). rewrite assert_true by (apply Rltb_true, Hr). destruct a as [a|]; cbn [default opt_len] in *; cbn [cpp_call].
    + rewrite !sized_ok by assumption. apply G; auto.
    + rewrite !sized_ok by assumption. apply G; auto.
  - intros N. destruct (Nat.eqb_spec (length o) 3) as [L|L]; [|reflexivity]. destruct (Rltb 0 r) eqn:E1; [|reflexivity]. apply Rltb_true in E1. cbn [assert_]. destruct a as [a|]; cbn [opt_len] in N; [|tauto].
    cbn [cpp_call]. rewrite sized_ok by exact L. apply sized_bad. tauto.
Qed.
(** Tori: the points at less than the minor radius of the circle. *)
Theorem C158_torus : forall R0 r0 c a b, 
  (0 < r0 < R0 -> opt_len 3 c -> opt_len 3 a -> default_tol < vec_norm (default [0; 0; 1] a) ->
     describes (create_torus R0 r0 c a b) 3 (fun p => exists q, on_circle (default [0; 0; 0] c) (default [0; 0; 1] a) R0 q /\ edist p q < r0))
  /\ (~ (0 < r0 < R0 /\ opt_len 3 c /\ opt_len 3 a) -> create_torus R0 r0 c a b = Abort).
Proof.
  assert (G : forall R0 r0 c a b, 0 < r0 < R0 -> length c = 3%nat -> length a = 3%nat -> default_tol < vec_norm a ->
    describes (choose 3 b (torus_bzr R0 r0 c a) (torus R0 r0 c a)) 3 (fun p => exists q, on_circle c a R0 q /\ edist p q < r0)).
  { intros R0 r0 c a b H Hc Ha Ht. assert (E : exists f, torus R0 r0 c a = Ret f). { unfold torus. rewrite (proj2 (Rltb_true 0 r0)) by lra. rewrite (proj2 (Rltb_true r0 R0)) by lra. eexists; reflexivity. }
    destruct E as (f & E). eapply values_describe; [apply (choose_values' 3 b _ _ f (C65_torus_partial R0 r0 c a Hc Ha Ht) E)|]. intros p Hp.
    exact (proj1 (proj2 (proj2 (proj2 C78_solids))) R0 r0 c a f p Hc Ha Hp Ht E). }
  assert (B : forall R0 r0 c a b, ~ 0 < r0 < R0 -> choose 3 b (torus_bzr R0 r0 c a) (torus R0 r0 c a) = Abort).
  { intros R0 r0 c a b H. assert (E : Rltb 0 r0 && Rltb r0 R0 = false). { destruct (Rltb 0 r0) eqn:E1; [|reflexivity]. destruct (Rltb r0 R0) eqn:E2; [|reflexivity]. apply Rltb_true in E1, E2. exfalso; apply H; split; assumption. }
    unfold torus_bzr, torus. rewrite E. destruct b; reflexivity. }
  intros R0 r0 c a b. unfold create_torus. split.
  - intros H Hc Ha Ht. rewrite !assert_true by (apply Rltb_true; lra). destruct c as [c|], a as [a|]; cbn [default opt_len] in *; cbn [cpp_call]; rewrite ?sized_ok by (assumption || reflexivity); cbn [repeat]; apply G; auto.
  - intros N. destruct (Rltb 0 R0) eqn:E1; [|reflexivity]. destruct (Rltb 0 r0) eqn:E2; [|reflexivity]. cbn [assert_].
    assert (S3 : forall l k, k = Abort -> sized 3 l k = Abort) by (intros l k ->; unfold sized; destruct (Nat.eqb _ _); reflexivity).
    destruct c as [c|], a as [a|]; cbn [opt_len] in N; cbn [cpp_call].
    + destruct (Nat.eq_dec (length c) 3) as [L|L]; [|apply sized_bad, L]. rewrite (sized_ok 3 c) by exact L. destruct (Nat.eq_dec (length a) 3) as [M|M]; [|apply sized_bad, M]. rewrite sized_ok by exact M. apply B. tauto.
    + destruct (Nat.eq_dec (length c) 3) as [L|L]; [|apply sized_bad, L]. rewrite sized_ok by exact L. apply B. tauto.
    + rewrite (sized_ok 3 (repeat 0 3)) by reflexivity. destruct (Nat.eq_dec (length a) 3) as [M|M]; [|apply sized_bad, M]. rewrite sized_ok by exact M. apply B. tauto.
    + apply B. tauto.
Qed.
(** Planes and lines: the side opposite to the normal. *)
Lemma half_space dim o n b : (dim = 2 \/ dim = 3)%nat -> length o = dim -> length n = dim -> vec_norm n <> 0 ->
  describes (choose dim b (plane_bzr dim o n) (Ret (plane dim o n))) dim (fun p => fold_right Rplus 0 (map (fun i => (nth i p 0 - nth i o 0) * nth i n 0) (seq 0 dim)) < 0).
Proof.
  intros Hd Ho Hn Hz. destruct (C65_plane_partial dim o n Hd Ho Hn Hz) as (q & E & V). rewrite E. assert (P := proj2 (proj2 (proj2 (proj2 (proj2 C78_solids))))).
  destruct b; cbn [choose bzr plain bind]; eexists; (split; [reflexivity|]); (split; [reflexivity|]); intros p Hp; cbn [ieval pf_impl].
  - rewrite V by exact Hp. rewrite <- (P dim o n p Hd Ho Hn Hp). assert (0 < vec_norm n) by (pose proof (norm_pos n); lra).
    split; intros H1.
    + replace (fval (plane dim o n) p) with (fval (plane dim o n) p / vec_norm n * vec_norm n) by (field; lra). nra.
    + unfold Rdiv. pose proof (Rinv_0_lt_compat _ H). nra.
  - rewrite <- (P dim o n p Hd Ho Hn Hp). reflexivity.
Qed.
Theorem C158_plane : forall o n b, 
  (opt_len 3 o -> opt_len 3 n -> vec_norm (default [1; 0; 0] n) <> 0 ->
     describes (create_plane o n b) 3 (fun p => fold_right Rplus 0 (map (fun i => (nth i p 0 - nth i (default [0; 0; 0] o) 0) * nth i (default [1; 0; 0] n) 0) (seq 0 3)) < 0))
  /\ (~ (opt_len 3 o /\ opt_len 3 n) -> create_plane o n b = Abort).
Proof.
  intros o n b. unfold create_plane. split.
  - intros Ho Hn Hz. destruct o as [o|], n as [n|]; cbn [default opt_len] in *; rewrite ?assert_true by (apply Nat.eqb_eq; assumption); cbn [cpp_call]; rewrite ?sized_ok by (assumption || reflexivity); apply half_space; auto.
  - intros N. destruct o as [o|], n as [n|]; cbn [opt_len] in N; try tauto.
    + destruct (Nat.eqb_spec (length o) 3); [|reflexivity]. destruct (Nat.eqb_spec (length n) 3); [tauto|reflexivity].
    + destruct (Nat.eqb_spec (length o) 3); [tauto|reflexivity].
    + destruct (Nat.eqb_spec (length n) 3); [tauto|reflexivity].
Qed.
Theorem C158_line : forall o n b, 
  (opt_len 2 o -> opt_len 2 n -> vec_norm (default [1; 0] n) <> 0 ->
     describes (create_line o n b) 2 (fun p => fold_right Rplus 0 (map (fun i => (nth i p 0 - nth i (default [0; 0] o) 0) * nth i (default [1; 0] n) 0) (seq 0 2)) < 0))
  /\ (~ (opt_len 2 o /\ opt_len 2 n) -> create_line o n b = Abort).
Proof.
  intros o n b. unfold create_line. split.
  - intros Ho Hn Hz. destruct o as [o|], n as [n|]; cbn [default opt_len] in *; rewrite ?assert_true by (apply Nat.eqb_eq; assumption); cbn [cpp_call]; rewrite ?sized_ok by (assumption || reflexivity); apply half_space; auto.
  - intros N. destruct o as [o|], n as [n|]; cbn [opt_len] in N; try tauto.
    + destruct (Nat.eqb_spec (length o) 2); [|reflexivity]. destruct (Nat.eqb_spec (length n) 2); [tauto|reflexivity].
    + destruct (Nat.eqb_spec (length o) 2); [tauto|reflexivity].
    + destruct (Nat.eqb_spec (length n) 2); [tauto|reflexivity].
Qed.
(** Ellipses and ellipsoids, in the given reference system or in the Cartesian one. *)
Definition cartesian (dim : nat) : ref_system := mk_ref (repeat 0 dim) (map (fun i => map (fun j => if Nat.eqb i j then 1 else 0) (seq 0 dim)) (seq 0 dim)).
Definition ref_of (dim : nat) (y : option (nat * ref_system)) : ref_system := match y with Some (_, s) => s | None => cartesian dim end.
Definition opt_ref (dim : nat) (y : option (nat * ref_system)) : Prop := match y with Some (d, s) => d = dim /\ good_ref dim s | None => True end.
(** The points o + u0 e0 + u1 e1 (+ u2 e2) with (u0/s0)^2 + (u1/s1)^2 (+ (u2/s2)^2) < 1. *)
Definition in_ellipsoid (dim : nat) (s : list R) (y : ref_system) (p : list R) : Prop :=
  exists u, length u = dim /\ p = in_frame (r_origin y) (r_basis y) u /\
    fold_right Rplus 0 (map (fun i => (nth i u 0 / nth i s 0) * (nth i u 0 / nth i s 0)) (seq 0 dim)) < 1.
Lemma ell_case dim s y b : (dim = 2 \/ dim = 3)%nat -> length s = dim -> Forall (fun x => 0 < x) s -> good_ref dim y ->
  describes (choose dim b (ellipsoid_bzr dim s y) (ellipsoid dim s y)) dim (in_ellipsoid dim s y).
Proof.
  intros Hd Hs Hpos (L1 & L2 & L3 & L4). assert (E : exists f, ellipsoid dim s y = Ret f).
  { unfold ellipsoid. rewrite assert_true; [eexists; reflexivity|]. apply forallb_forall. intros i Hi. apply in_seq in Hi. apply Rltb_true. unfold vx. rewrite Forall_forall in Hpos. apply Hpos, nth_In. lia. }
  destruct E as (f & E). eapply values_describe; [apply (choose_values' dim b _ _ f (C65_ellipsoid dim s y Hd Hs L1 L2 L3) E)|]. intros p Hp. split.
  - intros H. destruct (ell_sign dim s y f p Hd Hs L1 L2 L4 E Hp) as (u & A & B & C). exists u. split; [exact A|]. split; [exact B|]. lra.
  - intros (u & A & B & C). rewrite B. rewrite (ell_value dim s y f u); auto. lra.
Qed.
Lemma cartesian_eq dim : (dim = 2 \/ dim = 3)%nat -> ref_cartesian dim (repeat 0 dim) = cartesian dim /\ good_ref dim (cartesian dim).
Proof.
  intros [-> | ->]; (split; [reflexivity|]); (split; [reflexivity|]); (split; [reflexivity|]); (split; [repeat constructor|]); intros i j Hi Hj; cbn in Hi, Hj.
  - destruct i as [|[|i]], j as [|[|j]]; try lia; (split; [reflexivity|]); cbn; ring.
  - destruct i as [|[|[|i]]], j as [|[|[|j]]]; try lia; (split; [reflexivity|]); cbn; ring.
Qed.
Theorem C158_ellipse : forall s y b, length s = 2%nat -> Forall (fun x => 0 < x) s -> opt_ref 2 y ->
  describes (create_ellipse s y b) 2 (in_ellipsoid 2 s (ref_of 2 y)).
Proof.
  intros s y b Hs Hpos Hy. unfold create_ellipse. rewrite assert_true by (apply Nat.eqb_eq, Hs). rewrite assert_true by (apply forallb_forall; intros x Hx; apply Rltb_true; rewrite Forall_forall in Hpos; auto).
  destruct y as [(d, y)|]; cbn [opt_ref ref_of] in *.
  - destruct Hy as (-> & Hy). cbn [cpp_call]. rewrite sized_ok by exact Hs. apply ell_case; auto.
  - cbn [cpp_call]. rewrite sized_ok by exact Hs. destruct (cartesian_eq 2 (or_introl eq_refl)) as (-> & G). apply ell_case; auto.
Qed.
Theorem C158_ellipsoid : forall s y b, length s = 3%nat -> Forall (fun x => 0 < x) s -> opt_ref 3 y ->
  describes (create_ellipsoid s y b) 3 (in_ellipsoid 3 s (ref_of 3 y)).
Proof.
  intros s y b Hs Hpos Hy. unfold create_ellipsoid. rewrite assert_true by (apply Nat.eqb_eq, Hs).
  destruct y as [(d, y)|]; cbn [opt_ref ref_of] in *.
  - destruct Hy as (-> & Hy). cbn [cpp_call]. rewrite sized_ok by exact Hs. apply ell_case; auto.
  - cbn [cpp_call]. rewrite sized_ok by exact Hs. destruct (cartesian_eq 3 (or_intror eq_refl)) as (-> & G). apply ell_case; auto.
Qed.
(** Wrong sizes, semi-axes that are not positive and reference systems of another dimension are rejected. *)
Theorem C158_ellipsoid_rejects : forall s y b,
  (~ (length s = 2%nat /\ Forall (fun x => 0 < x) s /\ match y with Some (d, _) => d = 2%nat | None => True end) -> create_ellipse s y b = Abort)
  /\ (~ (length s = 3%nat /\ Forall (fun x => 0 < x) s /\ match y with Some (d, _) => d = 3%nat | None => True end) -> create_ellipsoid s y b = Abort).
Proof.
  assert (F : forall s, forallb (fun x => Rltb 0 x) s = true <-> Forall (fun x => 0 < x) s).
  { intros s. rewrite forallb_forall, Forall_forall. split; intros H x Hx; [apply Rltb_true|apply Rltb_true]; auto. }
  intros s y b. split; intros N.
  - unfold create_ellipse. destruct (Nat.eqb_spec (length s) 2) as [L|L]; [|reflexivity]. destruct (forallb _ s) eqn:E; [|reflexivity]. apply F in E. cbn [assert_]. destruct y as [(d, y)|]; [|tauto].
    cbn [cpp_call]. destruct d as [|[|[|d]]]; try reflexivity. tauto.
  - unfold create_ellipsoid. destruct (Nat.eqb_spec (length s) 3) as [L|L]; [|reflexivity]. cbn [assert_].
    assert (K : ~ Forall (fun x => 0 < x) s -> forall z, choose 3 b (ellipsoid_bzr 3 s z) (ellipsoid 3 s z) = Abort).
    { intros NF z. assert (Q : forallb (fun d => Rltb 0 (vx s d)) (seq 0 3) = false).
      { destruct (forallb (fun d => Rltb 0 (vx s d)) (seq 0 3)) eqn:Q; [|reflexivity]. exfalso. apply NF, F. rewrite <- Q. destruct s as [|s0 [|s1 [|s2 [|]]]]; try discriminate. reflexivity. }
      unfold ellipsoid_bzr, ellipsoid. rewrite Q. destruct b; reflexivity. }
    destruct y as [(d, y)|]; cbn [cpp_call].
    + destruct d as [|[|[|[|d]]]]; try reflexivity. rewrite sized_ok by exact L. apply K. tauto.
    + rewrite sized_ok by exact L. apply K. tauto.
Qed.
(** Constants. *)
Theorem C158_constant : forall v dim b, 
  ((dim = 2 \/ dim = 3)%nat -> has_values (create_constant v dim b) dim (fun _ => v)) /\ (~ (dim = 2 \/ dim = 3)%nat -> create_constant v dim b = Abort).
Proof.
  intros v dim b. unfold create_constant. split.
  - intros [-> | ->]; cbn [Nat.eqb orb assert_ cpp_call].
    + exact (choose_values 2 b _ _ (C65_constant 2 v (or_introl eq_refl))).
    + exact (choose_values 3 b _ _ (C65_constant 3 v (or_intror eq_refl))).
  - intros N. destruct (Nat.eqb_spec dim 2), (Nat.eqb_spec dim 3); try tauto; reflexivity.
Qed.
(** A function through a transformation t has at t(q) the value that the function has at q; without transformation nothing changes. *)
Lemma through dim t g : (dim = 2 \/ dim = 3)%nat -> good_aff dim t ->
  exists f, plain dim (with_transf dim t g) = Ret f /\ pf_dim f = dim /\ forall q, length q = dim -> ieval (pf_impl f) (transform_point dim t q) = fval g q.
Proof.
  intros Hd (L & D). destruct (proj2 (C36_inverse_domain dim t Hd L) D) as (B & E & _ & _). unfold with_transf. rewrite E. cbn [bind plain]. eexists. split; [reflexivity|]. split; [reflexivity|].
  intros q Hq. cbn [ieval pf_impl fval]. destruct (C36_inverse dim t q Hd L Hq D) as (B' & E' & K & _). assert (B' = B) as <- by congruence. rewrite K. reflexivity.
Qed.
Lemma id_good dim : (dim = 2 \/ dim = 3)%nat -> good_aff dim (identity_transf dim) /\ forall q, length q = dim -> transform_point dim (identity_transf dim) q = q.
Proof.
  intros [-> | ->]; (split; [split; [reflexivity|]|]).
  - unfold aff_det, identity_transf, translation, coefs_scale, det2. cbn [firstn skipn nth]. replace (1 * 1 - 0 * 0) with 1 by ring. rewrite Rabs_R1. unfold default_tol, M_Domain.eps. lra.
  - intros q Hq. destruct q as [|x [|y [|]]]; try discriminate. cbn. repeat (apply (f_equal2 cons); [ring|]); reflexivity.
  - unfold aff_det, identity_transf, translation, coefs_scale, det3. cbn [firstn skipn nth]. match goal with |- _ < Rabs ?x => replace x with 1 by ring end. rewrite Rabs_R1. unfold default_tol, M_Domain.eps. lra.
  - intros q Hq. destruct q as [|x [|y [|z [|]]]]; try discriminate. cbn. repeat (apply (f_equal2 cons); [ring|]); reflexivity.
Qed.
Lemma unchanged dim g : (dim = 2 \/ dim = 3)%nat -> has_values (plain dim (with_transf dim (identity_transf dim) g)) dim (fval g).
Proof.
  intros Hd. destruct (id_good dim Hd) as (G & I). destruct (through dim _ g Hd G) as (f & E & D & V). exists f. split; [exact E|]. split; [exact D|]. intros p Hp. rewrite <- (V p Hp), I by exact Hp. reflexivity.
Qed.
(** Boxes without transformation: (-1, 1)^dim, in 2D by default. *)
Theorem C158_box_partial : forall dim, 
  ((dim = None \/ dim = Some 2 \/ dim = Some 3)%nat -> describes (create_box None dim) (default 2%nat dim) (Forall (fun x => -1 < x < 1)))
  /\ (~ (dim = None \/ dim = Some 2 \/ dim = Some 3)%nat -> create_box None dim = Abort).
Proof.
  assert (G : forall d, (d = 2 \/ d = 3)%nat -> describes (plain d (with_transf d (identity_transf d) (square d))) d (Forall (fun x => -1 < x < 1))).
  { intros d Hd. eapply values_describe; [apply unchanged, Hd|]. intros p Hp. exact (proj1 (C68_square d p ltac:(lia) Hp)). }
  intros dim. unfold create_box. split.
  - intros [-> |[-> | ->]]; cbn [default Nat.eqb orb assert_ cpp_call]; apply G; auto.
  - intros N. destruct dim as [d|]; [|tauto]. destruct (Nat.eqb_spec d 2) as [E|E]; [rewrite E in N; tauto|]. destruct (Nat.eqb_spec d 3) as [F|F]; [rewrite F in N; tauto|]. cbn [orb]. reflexivity.
Qed.
(** Refuted: with a transformation create_box always raises, with or without the dimension: the bindings of create_square_2D and create_square_3D take no argument. The binding
    create_square, that the package does not use, would give the image of the box. *)
Theorem C158_box_refuted : forall d t dim, create_box (Some (d, t)) dim = Abort.
Proof. intros d t dim. unfold create_box. destruct (match dim with None => false | Some _ => _ end); [|reflexivity]. cbn [assert_]. destruct (match dim with Some 2%nat => true | _ => false end); reflexivity. Qed.
Theorem C158_square_binding_partial : forall dim t, (dim = 2 \/ dim = 3)%nat -> good_aff dim t ->
  exists f, cpp_call B_square [PAff dim t] = Ret f /\ pf_dim f = dim /\
    forall q, length q = dim -> (ieval (pf_impl f) (transform_point dim t q) < 0 <-> Forall (fun x => -1 < x < 1) q).
Proof.
  intros dim t Hd Ht. cbn [cpp_call]. destruct (through dim t (square dim) Hd Ht) as (f & E & D & V). exists f. split; [exact E|]. split; [exact D|]. intros q Hq. rewrite (V q Hq). exact (proj1 (C68_square dim q ltac:(lia) Hq)).
Qed.
(** Dim-linear functions: multilinear, with the coefficients as values at the vertices of the unit box (of its image). *)
Theorem C158_dim_linear : forall c t, 
  (t = None -> (length c = 4%nat -> has_values (create_dim_linear c t) 2 (fval (dim_linear 2 c))) /\ (length c = 8%nat -> has_values (create_dim_linear c t) 3 (fval (dim_linear 3 c))))
  /\ (forall dim A, t = Some (dim, A) -> (dim = 2 \/ dim = 3)%nat -> good_aff dim A -> length c = (2 ^ dim)%nat ->
       exists f, create_dim_linear c t = Ret f /\ pf_dim f = dim /\
         (dim = 2%nat -> forall bx by_, (bx <= 1 /\ by_ <= 1)%nat -> ieval (pf_impl f) (transform_point 2 A [INR bx; INR by_]) = nth (bx + 2 * by_) c 0) /\
         (dim = 3%nat -> forall bx by_ bz, (bx <= 1 /\ by_ <= 1 /\ bz <= 1)%nat -> ieval (pf_impl f) (transform_point 3 A [INR bx; INR by_; INR bz]) = nth (bx + 2 * by_ + 4 * bz) c 0))
  /\ (length c <> 4%nat -> length c <> 8%nat -> create_dim_linear c t = Abort).
Proof.
  intros c t. unfold create_dim_linear. split; [|split].
  - intros ->. split; intros H; rewrite H; cbn [Nat.eqb orb assert_ cpp_call]; rewrite H; cbn [Nat.eqb]; apply unchanged; auto.
  - intros dim A -> [-> | ->] HA Hc; cbn [Nat.eqb] in *; rewrite Hc; cbn [Nat.pow Nat.mul Nat.add Nat.eqb orb assert_ cpp_call]; rewrite Hc; cbn [Nat.pow Nat.mul Nat.add Nat.eqb andb].
    + destruct (through 2 A (dim_linear 2 c) (or_introl eq_refl) HA) as (f & E & D & V). exists f. split; [exact E|]. split; [exact D|]. split; [|discriminate]. intros _ bx by_ H. rewrite (V [INR bx; INR by_] eq_refl). apply (proj1 (C68_multilinear c)), H.
    + destruct (through 3 A (dim_linear 3 c) (or_intror eq_refl) HA) as (f & E & D & V). exists f. split; [exact E|]. split; [exact D|]. split; [discriminate|]. intros _ bx by_ bz H. rewrite (V [INR bx; INR by_; INR bz] eq_refl). apply (proj1 (proj2 (C68_multilinear c))), H.
  - intros H1 H2. rewrite (proj2 (Nat.eqb_neq _ _) H1), (proj2 (Nat.eqb_neq _ _) H2). reflexivity.
Qed.
(** TPMS: the 3D function has [periods_i] periods per unit of length; the 2D one is its section at height z (0 by default). *)
Theorem C158_tpms : forall k m z, 
  (length m = 3%nat -> z = None -> has_values (create_tpms k m z) 3 (fval (tpms_func k 3 m 0)))
  /\ (length m = 2%nat -> has_values (create_tpms k m z) 2 (fun p => fval (tpms_func k 3 (m ++ [1]) 0) (p ++ [default 0 z])))
  /\ (~ (length m = 2%nat \/ (length m = 3%nat /\ z = None)) -> create_tpms k m z = Abort).
Proof.
  intros k m z. unfold create_tpms. split; [|split].
  - intros H ->. rewrite H. cbn [Nat.eqb orb assert_ cpp_call]. rewrite H. cbn [Nat.eqb plain bind]. eexists. split; [reflexivity|]. split; reflexivity.
  - intros H. rewrite H. cbn [Nat.eqb orb assert_]. destruct z as [z|]; cbn [cpp_call default]; rewrite H; cbn [Nat.eqb plain bind]; eexists; (split; [reflexivity|]); (split; [reflexivity|]); intros p Hp;
      destruct p as [|x [|y [|]]]; try discriminate; cbn [ieval pf_impl app]; apply (proj1 (C66_section k x y _ (m ++ [1]) 0)).
  - intros N. destruct (Nat.eqb_spec (length m) 2) as [L|L]; [tauto|]. destruct (Nat.eqb_spec (length m) 3) as [M|M]; [|reflexivity]. cbn [orb assert_]. destruct z as [z|]; [reflexivity|tauto].
Qed.

(** C159. *)
Definition fine (f : pyfunc) : Prop :=
  (pf_dim f = 2 \/ pf_dim f = 3)%nat /\ match pf_impl f with Plain _ => True | Bzr q => valid_poly q /\ length (p_order q) = pf_dim f end.
Lemma make_poly_fine o c q : make_poly o c = Ret q -> valid_poly q /\ p_order q = o.
Proof.
  unfold make_poly. destruct (Nat.ltb_spec 0 (length o)) as [A|]; [|discriminate]. cbn [assert_]. destruct (forallb _ o) eqn:B; [|discriminate]. cbn [assert_].
  destruct (Nat.eqb_spec (tp_size o) (length c)) as [C|]; [|discriminate]. cbn [assert_]. intros E. assert (q = mk_poly o c) as -> by congruence. split; [|reflexivity]. split; [|split].
  - cbn [p_order]. intros ->. cbn in A. lia.
  - cbn [p_order]. rewrite forallb_forall in B. apply Forall_forall. intros x Hx. apply Nat.ltb_lt, B, Hx.
  - cbn [p_order p_coefs]. congruence.
Qed.
Definition poly_of (dim : nat) (q : outcome M_Poly.poly) : Prop := forall p, q = Ret p -> valid_poly p /\ length (p_order p) = dim.
Lemma poly_of_make dim n c : poly_of dim (make_poly (tp_const dim n) c).
Proof. intros p E. apply make_poly_fine in E as (A & B). split; [exact A|]. rewrite B. unfold tp_const. apply repeat_length. Qed.
Lemma poly_of_mono dim n c : poly_of dim (bezier_of_mono (mk_poly (tp_const dim n) c)).
Proof. intros p E. unfold bezier_of_mono in E. cbn [p_order] in E. eapply poly_of_make, E. Qed.
Lemma poly_of_assert dim b q : poly_of dim q -> poly_of dim (assert_ b q).
Proof. intros H p E. destruct b; [apply H, E|discriminate]. Qed.
Lemma poly_of_bind dim {A} (o : outcome A) k : (forall a, poly_of dim (k a)) -> poly_of dim (bind o k).
Proof. intros H p E. destruct o; try discriminate. cbn [bind] in E. eapply H, E. Qed.
Definition fine_out (o : outcome pyfunc) : Prop := forall f, o = Ret f -> fine f.
Lemma fine_plain dim o : (dim = 2 \/ dim = 3)%nat -> fine_out (plain dim o).
Proof. intros Hd f E. unfold plain in E. destruct o; try discriminate. cbn [bind] in E. injection E as <-. split; [exact Hd|exact I]. Qed.
Lemma fine_bzr dim o : (dim = 2 \/ dim = 3)%nat -> poly_of dim o -> fine_out (bzr dim o).
Proof. intros Hd H f E. unfold bzr in E. destruct o as [q| | |]; try discriminate. cbn [bind] in E. injection E as <-. split; [exact Hd|]. apply H. reflexivity. Qed.
Lemma fine_choose dim b q o : (dim = 2 \/ dim = 3)%nat -> poly_of dim q -> fine_out (choose dim b q o).
Proof. intros Hd H. destruct b; [apply fine_bzr; assumption|apply fine_plain, Hd]. Qed.
Lemma fine_abort : fine_out Abort. Proof. intros f E. discriminate. Qed.
Lemma fine_sized n a k : fine_out k -> fine_out (sized n a k).
Proof. intros H. unfold sized. destruct (Nat.eqb _ _); [exact H|exact fine_abort]. Qed.
Lemma fine_if (b : bool) k l : fine_out k -> fine_out l -> fine_out (if b then k else l).
Proof. destruct b; auto. Qed.
Lemma fine_assert b k : fine_out k -> fine_out (assert_ b k).
Proof. destruct b; [auto|intros _; exact fine_abort]. Qed.
Ltac poly_tac := lazymatch goal with
  | |- poly_of _ (assert_ _ _) => apply poly_of_assert; poly_tac
  | |- poly_of _ (bind _ _) => apply poly_of_bind; intros ?; poly_tac
  | |- poly_of _ (bezier_of_mono _) => apply poly_of_mono
  | |- poly_of _ (make_poly _ _) => apply poly_of_make end.
Ltac dim_tac := first [left; reflexivity | right; reflexivity | assumption].
Ltac fine_tac := lazymatch goal with
  | |- fine_out Abort => exact fine_abort
  | |- fine_out (sized _ _ _) => apply fine_sized; fine_tac
  | |- fine_out (assert_ _ _) => apply fine_assert; fine_tac
  | |- fine_out (choose _ _ _ _) => apply fine_choose; [dim_tac|]; unfold sphere_bzr, ellipsoid_bzr, cylinder_bzr, annulus_bzr, torus_bzr, plane_bzr, constant_bzr; poly_tac
  | |- fine_out (plain _ _) => apply fine_plain; dim_tac end.
Definition fine_binding (f : binding) : Prop := match f with B_constant d | B_square_no_arg d => (d = 2 \/ d = 3)%nat | _ => True end.
Lemma fine_call f args : fine_binding f -> (forall d t, In (PAff d t) args -> f = B_square -> (d = 2 \/ d = 3)%nat) -> fine_out (cpp_call f args).
Proof.
  intros Hf Ha. destruct f; cbn [cpp_call fine_binding] in *;
    repeat (lazymatch goal with |- fine_out (match ?x with _ => _ end) => destruct x end); try fine_tac.
  eapply fine_plain, Ha; [left; reflexivity|reflexivity].
Qed.
Lemma made_fine f : made f -> fine f.
Proof.
  induction 1 as [r c b f E|r c b f E|s y b f E|s y b f E|r o a b f E|ri ro c b f E|R0 r0 c a b f E|v d b f E|o n b f E|o n b f E|c t f E|t d f E|k m z f E
    |g f Mg IH E|g h f Mg IHg Mh IHh E|g h f Mg IHg Mh IHh E|g t f Mg IH E].
  all: try (revert f E; match goal with |- forall f, ?o = Ret f -> fine f => change (fine_out o) end).
  - unfold create_disk. apply fine_assert. destruct c; [apply fine_assert|]; apply fine_call; try exact I; intros; discriminate.
  - unfold create_sphere. apply fine_assert. destruct c; [apply fine_assert|]; apply fine_call; try exact I; intros; discriminate.
  - unfold create_ellipse. do 2 apply fine_assert. destruct y as [(d, y)|]; apply fine_call; try exact I; intros; discriminate.
  - unfold create_ellipsoid. apply fine_assert. destruct y as [(d, y)|]; apply fine_call; try exact I; intros; discriminate.
  - unfold create_cylinder. do 2 apply fine_assert. destruct a; apply fine_call; try exact I; intros; discriminate.
  - unfold create_annulus. do 2 apply fine_assert. destruct c; [apply fine_assert|]; apply fine_call; try exact I; intros; discriminate.
  - unfold create_torus. do 2 apply fine_assert. destruct c, a; apply fine_call; try exact I; intros; discriminate.
  - unfold create_constant. apply fine_assert. apply fine_if; apply fine_call; try (cbn; auto; fail); intros; discriminate.
  - unfold create_plane. destruct o, n; [do 2 apply fine_assert|apply fine_assert|apply fine_assert|idtac]; apply fine_call; try exact I; intros; discriminate.
  - unfold create_line. destruct o, n; [do 2 apply fine_assert|apply fine_assert|apply fine_assert|idtac]; apply fine_call; try exact I; intros; discriminate.
  - unfold create_dim_linear. apply fine_assert. destruct t as [(d, t)|]; [cbv zeta; apply fine_assert|]; apply fine_call; try exact I; intros; discriminate.
  - unfold create_box. destruct t as [(e, t)|].
    + apply fine_assert, fine_if; apply fine_call; try (cbn; auto; fail); intros; discriminate.
    + cbv zeta. apply fine_assert, fine_if; apply fine_call; try (cbn; auto; fail); intros; discriminate.
  - unfold create_tpms. do 2 apply fine_assert. destruct z; apply fine_call; try exact I; intros; discriminate.
  - destruct IH as (D & V). unfold create_negative. destruct (pf_impl g) as [u|q].
    + apply fine_plain, D.
    + apply fine_bzr; [exact D|]. intros p E. assert (p = bezier_negate q) as -> by congruence. destruct V as (V & L).
      destruct (C56_arithmetic q q V V eq_refl ltac:(lia)) as (_ & _ & _ & (W & _) & _). split; [exact W|exact L].
  - destruct IHg as (D & V), IHh as (D' & V'). unfold create_functions_addition. destruct (Nat.eqb_spec (pf_dim g) (pf_dim h)) as [S|S]; cbn [negb]; [|exact fine_abort].
    destruct (pf_impl g) as [u|q], (pf_impl h) as [u'|q']; try (apply fine_plain, D). apply fine_bzr; [exact D|]. intros p E. destruct V as (V & L), V' as (V' & L').
    destruct (C56_arithmetic q q' V V' ltac:(lia) ltac:(lia)) as (_ & (r & F & W & G & _) & _). assert (p = r) as -> by congruence. split; [exact W|lia].
  - destruct IHg as (D & V), IHh as (D' & V'). unfold create_functions_subtraction. destruct (Nat.eqb_spec (pf_dim g) (pf_dim h)) as [S|S]; cbn [negb]; [|exact fine_abort].
    destruct (pf_impl g) as [u|q], (pf_impl h) as [u'|q']; try (apply fine_plain, D). apply fine_bzr; [exact D|]. intros p E. destruct V as (V & L), V' as (V' & L').
    destruct (C56_arithmetic q q' V V' ltac:(lia) ltac:(lia)) as (_ & _ & (r & F & W & G & _) & _). assert (p = r) as -> by congruence. split; [exact W|lia].
  - destruct IH as (D & V). unfold create_affinely_transformed. apply fine_if; [|exact fine_abort]. apply fine_plain, D.
Qed.
(** The negative, the sum and the difference of functions made in Python: always, whatever the kinds of functions (Bezier or not), with the expected values; functions of different dimensions
    are rejected. *)
Theorem C159_negative : forall f, made f -> has_values (create_negative f) (pf_dim f) (fun p => - ieval (pf_impl f) p).
Proof.
  intros f M. apply made_fine in M as (D & V). unfold create_negative. destruct (pf_impl f) as [u|q].
  - eexists. split; [reflexivity|]. split; [reflexivity|]. intros p _. reflexivity.
  - destruct V as (V & L). destruct (C56_arithmetic q q V V eq_refl ltac:(lia)) as (_ & _ & _ & (W & H) & _).
    eexists. split; [reflexivity|]. split; [reflexivity|]. intros p Hp. cbn [ieval pf_impl]. apply H. lia.
Qed.
Lemma to_func_val f p : fval (to_func f) p = ieval f p. Proof. destruct f; reflexivity. Qed.
Theorem C159_sum : forall f g, made f -> made g -> 
  (pf_dim f = pf_dim g -> has_values (create_functions_addition f g) (pf_dim f) (fun p => ieval (pf_impl f) p + ieval (pf_impl g) p)
     /\ has_values (create_functions_subtraction f g) (pf_dim f) (fun p => ieval (pf_impl f) p - ieval (pf_impl g) p))
  /\ (pf_dim f <> pf_dim g -> create_functions_addition f g = Abort /\ create_functions_subtraction f g = Abort).
Proof.
  intros f g Mf Mg. apply made_fine in Mf as (D & V), Mg as (D' & V'). unfold create_functions_addition, create_functions_subtraction. split; intros S.
  - rewrite (proj2 (Nat.eqb_eq _ _) S). cbn [negb].
    destruct (pf_impl f) as [u|q], (pf_impl g) as [u'|q'];
      try (split; (eexists; split; [reflexivity|]; split; [reflexivity|]; intros p _; reflexivity)).
    destruct V as (V & L), V' as (V' & L'). destruct (C56_arithmetic q q' V V' ltac:(lia) ltac:(lia)) as (_ & (r & F & _ & _ & H) & (r' & F' & _ & _ & H') & _). rewrite F, F'.
    split; (eexists; split; [reflexivity|]; split; [reflexivity|]; intros p Hp; cbn [ieval pf_impl]); [apply H|apply H']; lia.
  - rewrite (proj2 (Nat.eqb_neq _ _) S). split; reflexivity.
Qed.
(** The function transformed by t has at the image of a point the value of the function at the point. *)
Theorem C159_transformed : forall f dim t, made f -> 
  (pf_dim f = dim -> good_aff dim t -> exists g, create_affinely_transformed f (dim, t) = Ret g /\ pf_dim g = dim /\
     forall q, length q = dim -> ieval (pf_impl g) (transform_point dim t q) = ieval (pf_impl f) q)
  /\ (pf_dim f = dim -> length t = (dim * (dim + 1))%nat -> Rabs (aff_det dim t) <= default_tol -> create_affinely_transformed f (dim, t) = Abort)
  /\ (pf_dim f <> dim -> create_affinely_transformed f (dim, t) = Abort).
Proof.
  intros f dim t M. apply made_fine in M as (D & _). unfold create_affinely_transformed. cbn [fst snd]. split; [|split].
  - intros <- G. rewrite Nat.eqb_refl. destruct (through (pf_dim f) t (to_func (pf_impl f)) D G) as (g & E & Dg & H). exists g. split; [exact E|]. split; [exact Dg|].
    intros q Hq. rewrite H by exact Hq. apply to_func_val.
  - intros <- L Z. rewrite Nat.eqb_refl. unfold transformed, with_transf. rewrite (proj1 (C36_inverse_domain (pf_dim f) t D L) Z). reflexivity.
  - intros N. rewrite (proj2 (Nat.eqb_neq _ _) N). reflexivity.
Qed.
(** Points of another dimension are rejected. *)
Theorem C159_eval : forall f pts, 
  (Forall (fun p => length p = pf_dim f) pts -> exists vs, pyeval f pts = Ret vs /\ length vs = length pts /\ forall i, (i < length pts)%nat -> nth i vs 0 = ieval (pf_impl f) (nth i pts []))
  /\ (~ Forall (fun p => length p = pf_dim f) pts -> pyeval f pts = Abort).
Proof.
  intros f pts. assert (F : forallb (fun p => Nat.eqb (length p) (pf_dim f)) pts = true <-> Forall (fun p => length p = pf_dim f) pts).
  { rewrite forallb_forall, Forall_forall. split; intros H x Hx; apply Nat.eqb_eq; auto. }
  unfold pyeval. split; intros H.
  - rewrite (proj2 F H). cbn [assert_]. eexists. split; [reflexivity|]. split; [apply map_length|]. intros i Hi.
    rewrite (nth_indep _ 0 (ieval (pf_impl f) [])) by (rewrite map_length; exact Hi). apply map_nth.
  - destruct (forallb _ pts); [tauto|reflexivity].
Qed.
Print Assumptions C158_disk.
Print Assumptions C158_sphere.
Print Assumptions C158_annulus.
Print Assumptions C158_cylinder.
Print Assumptions C158_torus.
Print Assumptions C158_plane.
Print Assumptions C158_line.
Print Assumptions C158_ellipse.
Print Assumptions C158_ellipsoid.
Print Assumptions C158_ellipsoid_rejects.
Print Assumptions C158_constant.
Print Assumptions C158_box_partial.
Print Assumptions C158_box_refuted.
Print Assumptions C158_square_binding_partial.
Print Assumptions C158_dim_linear.
Print Assumptions C158_tpms.
Print Assumptions C159_negative.
Print Assumptions C159_sum.
Print Assumptions C159_transformed.
Print Assumptions C159_eval.

(** The hypotheses are met: a rotated ellipse, a torus around the y axis, and the difference of a Bezier disk and of a transformed plane disk. *)
Example C158_nonvacuous : Forall (fun x => 0 < x) [1 / 2; 1 / 4] /\ opt_ref 2 (Some (2%nat, mk_ref [1; 2] [[3 / 5; 4 / 5]; [- (4 / 5); 3 / 5]])) /\ default_tol < vec_norm [0; 1; 0].
Proof.
  split; [repeat (constructor; [lra|]); constructor|]. split.
  - split; [reflexivity|]. split; [reflexivity|]. split; [reflexivity|]. split; [repeat (constructor; [reflexivity|]); constructor|].
    intros i j Hi Hj. cbn in Hi, Hj. destruct i as [|[|i]], j as [|[|j]]; try lia; (split; [reflexivity|]); cbn; lra.
  - unfold vec_norm. match goal with |- _ < sqrt ?x => replace x with 1 by (cbn; ring) end. rewrite sqrt_1. unfold default_tol, M_Domain.eps. lra.
Qed.
Example C159_nonvacuous : exists f g h, create_disk 1 (Some [1 / 2; 0]) true = Ret f /\ create_affinely_transformed f (2%nat, [2; 0; 0; 2; 1; 1]) = Ret g /\ create_functions_subtraction f g = Ret h /\ made h
  /\ good_aff 2 [2; 0; 0; 2; 1; 1].
Proof.
  assert (G : good_aff 2 [2; 0; 0; 2; 1; 1]).
  { split; [reflexivity|]. unfold aff_det, det2. cbn [firstn skipn nth]. match goal with |- _ < Rabs ?x => replace x with 4 by ring end. rewrite Rabs_pos_eq by lra. unfold default_tol, M_Domain.eps. lra. }
  destruct (proj1 (C158_disk 1 (Some [1 / 2; 0]) true) ltac:(lra) eq_refl) as (f & Ef & Df & _). pose proof (m_disk _ _ _ _ Ef) as Mf.
  destruct (proj1 (C159_transformed f 2 [2; 0; 0; 2; 1; 1] Mf) Df G) as (g & Eg & Dg & _). pose proof (m_transformed _ _ _ Mf Eg) as Mg.
  destruct (proj2 (proj1 (C159_sum f g Mf Mg) ltac:(congruence))) as (h & Eh & _). exists f, g, h.
  split; [exact Ef|]. split; [exact Eg|]. split; [exact Eh|]. split; [exact (m_subtraction _ _ _ Mf Mg Eh)|exact G].
Qed.
