(** Properties C91-C92 in three dimensions: the rules are wrong on boxes whose minimum corner is not the origin (the defect of C33). *)
From Coq Require Import Reals ZArith List Lia Lra.
From Coquelicot Require Import Coquelicot.
From Verif Require Import M_Tables L_Gauss2 L_Gauss4 L_Gauss5 L_Gauss6 M_Quad S_Quad S_Gauss S_Domain L_Real L_QuadTP L_Quad L_DomainQ P_Gauss.
Import ListNotations.
Local Open Scope R_scope.

Lemma first_gauss : nth 0 gauss_table 0 = / 2 /\ nth 1 gauss_table 0 = 1.
Proof.
  unfold gauss_table. rewrite <- decimal0, !map_nth. replace (nth 0 M_GaussData.gauss_literals (0, 0)%Z) with (5000000000000000000000000000000000, 34)%Z by (vm_compute; reflexivity).
  replace (nth 1 M_GaussData.gauss_literals (0, 0)%Z) with (1000000000000000000000000000000000, 33)%Z by (vm_compute; reflexivity). unfold decimal. cbn [fst snd].
  change (10 ^ 34)%Z with (10000000000000000000000000000000000)%Z. change (10 ^ 33)%Z with (1000000000000000000000000000000000)%Z. split; field.
Qed.
Lemma first_tanh_sinh : nth 0 tanh_sinh_table 0 = / 2 /\ nth 1 tanh_sinh_table 0 = 1.
Proof.
  unfold tanh_sinh_table. rewrite <- decimal0, !map_nth. replace (nth 0 M_TanhSinhData.tanh_sinh_literals (0, 0)%Z) with (5, 1)%Z by (vm_compute; reflexivity).
  replace (nth 1 M_TanhSinhData.tanh_sinh_literals (0, 0)%Z) with (10, 1)%Z by (vm_compute; reflexivity). unfold decimal. cbn [fst snd].
  change (10 ^ 1)%Z with 10%Z. split; field.
Qed.
(** The polynomial 1 on the box [1,2]^3: its integral is 1. *)
Lemma one_integral : RInt3 (poly3 1 2 1 2 1 2 [(1, (0, 0, 0)%nat)]) 1 2 1 2 1 2 = 1.
Proof.
  unfold RInt3, RInt2. assert (E : forall z y, RInt (fun x => poly3 1 2 1 2 1 2 [(1, (0, 0, 0)%nat)] x y z) 1 2 = 1).
  { intros z y. rewrite (RInt_ext _ (fun _ => 1)) by (intros; match goal with |- ?l = _ => change (@eq R l 1) end; unfold poly3; cbn [fold_right fst snd pow]; ring). rewrite RInt_const. match goal with |- ?l = ?r => change (@eq R ((2 - 1) * 1) 1) end. ring. }
  rewrite (RInt_ext _ (fun _ => 1)).
  - rewrite RInt_const. match goal with |- ?l = ?r => change (@eq R ((2 - 1) * 1) 1) end. ring.
  - intros z _. rewrite (RInt_ext _ (fun _ => 1)) by (intros; apply E). rewrite RInt_const. match goal with |- ?l = ?r => change (@eq R ((2 - 1) * 1) 1) end. ring.
Qed.
Lemma wrong_3d : forall table, Z.of_nat (length table) = n_entries -> nth 0 table 0 = / 2 -> nth 1 table 0 = 1 ->
  exists q, create_tp table [1; 1; 1]%Z (mk_box [1; 1; 1] [2; 2; 2]) = Ret q /\
    integ q (fun p => poly3 1 2 1 2 1 2 [(1, (0, 0, 0)%nat)] (nth 0 p 0) (nth 1 p 0) (nth 2 p 0)) = 8.
Proof.
  intros table Ht H0 H1. eexists. split.
  - unfold create_tp. rewrite assert_true by reflexivity.
    pose proof (tp3_ok table Ht 1 1 1 (mk_box [1; 1; 1] [2; 2; 2]) ltac:(lia) ltac:(unfold n_max; lia) ltac:(lia) ltac:(unfold n_max; lia) ltac:(lia) ltac:(unfold n_max; lia)) as H3.
    change (Z.of_nat 1) with 1%Z in H3. cbn [seq flat_map map app] in H3. rewrite H3. cbn [bind]. rewrite assert_true by reflexivity. reflexivity.
  - unfold px3, pw3, blen, bmn, x1d, w1d. cbn [bmin bmax nth Nat.sub Nat.mul Nat.add]. rewrite H0, H1. unfold integ, poly3. cbn. lra.
Qed.
(** Exactness, as stated in C91 for polynomials of degree less than 2n in every direction on every box, fails in three dimensions for the rule of one point
    and the constant 1; the same for the tanh-sinh rule and functions that are affine in every direction. *)
Theorem C91_gauss_3d_refuted : ~ (forall n0 n1 n2 a b c d e f P, (1 <= n0 <= 100)%nat -> (1 <= n1 <= 100)%nat -> (1 <= n2 <= 100)%nat -> a < b -> c < d -> e < f ->
  Forall (fun t => (fst (fst (snd t)) < 2 * n0 /\ snd (fst (snd t)) < 2 * n1 /\ snd (snd t) < 2 * n2)%nat) P ->
  exists q, create_tp gauss_table [Z.of_nat n0; Z.of_nat n1; Z.of_nat n2] (mk_box [a; c; e] [b; d; f]) = Ret q /\
    Rabs (integ q (fun p => poly3 a b c d e f P (nth 0 p 0) (nth 1 p 0) (nth 2 p 0)) - RInt3 (poly3 a b c d e f P) a b c d e f) <= 4 * tiny * ((b - a) * (d - c) * (f - e)) * size P).
Proof.
  intros H. destruct (H 1%nat 1%nat 1%nat 1 2 1 2 1 2 [(1, (0, 0, 0)%nat)] ltac:(lia) ltac:(lia) ltac:(lia) ltac:(lra) ltac:(lra) ltac:(lra)
    ltac:(constructor; [cbn; lia|constructor])) as (q & E & B).
  destruct (wrong_3d gauss_table gauss_entries (proj1 first_gauss) (proj2 first_gauss)) as (q' & E' & I). change (Z.of_nat 1) with 1%Z in E. rewrite E in E'. injection E' as <-.
  rewrite I, one_integral in B. unfold tiny, size in B. cbn [fold_right fst] in B. rewrite Rabs_R1, (Rabs_right (8 - 1)) in B by lra. lra.
Qed.
Print Assumptions C91_gauss_3d_refuted.
Theorem C92_tanh_sinh_3d_refuted : ~ (forall n0 n1 n2 a b c d e f P, (1 <= n0 <= 100)%nat -> (1 <= n1 <= 100)%nat -> (1 <= n2 <= 100)%nat -> a < b -> c < d -> e < f ->
  Forall (fun t => (fst (fst (snd t)) < 2 /\ snd (fst (snd t)) < 2 /\ snd (snd t) < 2)%nat) P ->
  exists q, create_tp tanh_sinh_table [Z.of_nat n0; Z.of_nat n1; Z.of_nat n2] (mk_box [a; c; e] [b; d; f]) = Ret q /\
    Rabs (integ q (fun p => poly3 a b c d e f P (nth 0 p 0) (nth 1 p 0) (nth 2 p 0)) - RInt3 (poly3 a b c d e f P) a b c d e f) <= 4 * / 10 ^ 30 * ((b - a) * (d - c) * (f - e)) * size P).
Proof.
  intros H. destruct (H 1%nat 1%nat 1%nat 1 2 1 2 1 2 [(1, (0, 0, 0)%nat)] ltac:(lia) ltac:(lia) ltac:(lia) ltac:(lra) ltac:(lra) ltac:(lra)
    ltac:(constructor; [cbn; lia|constructor])) as (q & E & B).
  destruct (wrong_3d tanh_sinh_table tanh_sinh_entries (proj1 first_tanh_sinh) (proj2 first_tanh_sinh)) as (q' & E' & I). change (Z.of_nat 1) with 1%Z in E. rewrite E in E'. injection E' as <-.
  rewrite I, one_integral in B. unfold size in B. cbn [fold_right fst] in B. rewrite Rabs_R1, (Rabs_right (8 - 1)) in B by lra. lra.
Qed.
Print Assumptions C92_tanh_sinh_3d_refuted.
