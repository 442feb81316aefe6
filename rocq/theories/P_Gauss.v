(** Properties C91-C92: the Gauss-Legendre and tanh-sinh tables. *)
From Coq Require Import Reals ZArith List Lia Lra.
From Coquelicot Require Import Coquelicot.
From Verif Require Import M_Tables L_Gauss2 L_Gauss4 L_Gauss5 L_Gauss6 M_Quad S_Quad S_Gauss S_Domain S_Grid L_QuadTP L_Quad L_QuadProps L_QuadRun L_DomainQ L_DomainT.
Import ListNotations.
Local Open Scope R_scope.

(** ** Shape of the rules: n points in increasing order strictly inside (0,1), positive weights, symmetric with respect to 1/2 up to 10^-33. *)
Definition well_shaped (table : list R) (n : nat) : Prop :=
  (forall i, (i < n)%nat -> 0 < x1d table n i < 1 /\ 0 < w1d table n i <= 1) /\
  (forall i, (S i < n)%nat -> x1d table n i < x1d table n (S i)) /\
  (forall i, (i < n)%nat -> Rabs (x1d table n i + x1d table n (n - 1 - i) - 1) <= / 10 ^ 33 /\ Rabs (w1d table n i - w1d table n (n - 1 - i)) <= / 10 ^ 33).
Lemma gauss_entries : Z.of_nat (length gauss_table) = n_entries.
Proof. unfold gauss_table. rewrite map_length, gauss_len. reflexivity. Qed.
Lemma tanh_sinh_entries : Z.of_nat (length tanh_sinh_table) = n_entries.
Proof. unfold tanh_sinh_table. rewrite map_length, tanh_sinh_len. reflexivity. Qed.
Theorem C91_gauss_shape : Z.of_nat (length gauss_table) = n_entries /\ forall n, (1 <= n <= 100)%nat -> well_shaped gauss_table n.
Proof.
  split; [exact gauss_entries|]. intros n Hn. pose proof (gauss_shape n Hn) as Sh. split; [|split]; intros i Hi; [apply (shape_range _ gauss_len n Hn Sh i Hi)|apply (shape_incr _ gauss_len n Hn Sh i Hi)|apply (shape_sym _ gauss_len n Hn Sh i Hi)].
Qed.
Print Assumptions C91_gauss_shape.

(** ** Gauss rules integrate polynomials of degree less than 2n per direction *)
Lemma tiny_range : 0 <= tiny <= 1 / 100.
Proof. unfold tiny. lra. Qed.
Theorem C91_gauss_exact_1d : forall n a b P, (1 <= n <= 100)%nat -> a < b -> Forall (fun t => (snd t < 2 * n)%nat) P ->
  exists q, create_tp gauss_table [Z.of_nat n] (mk_box [a] [b]) = Ret q /\
    Rabs (integ q (fun p => poly1 a b P (nth 0 p 0)) - RInt (poly1 a b P) a b) <= tiny * (b - a) * size P.
Proof. intros n a b P Hn Hab HP. apply (poly1_lemma gauss_table gauss_entries tiny tiny_range n (2 * n)); try assumption. apply approx_gauss, Hn. Qed.
Print Assumptions C91_gauss_exact_1d.
Theorem C91_gauss_exact_2d : forall n0 n1 a b c d P, (1 <= n0 <= 100)%nat -> (1 <= n1 <= 100)%nat -> a < b -> c < d ->
  Forall (fun t => (fst (snd t) < 2 * n0 /\ snd (snd t) < 2 * n1)%nat) P ->
  exists q, create_tp gauss_table [Z.of_nat n0; Z.of_nat n1] (mk_box [a; c] [b; d]) = Ret q /\
    Rabs (integ q (fun p => poly2 a b c d P (nth 0 p 0) (nth 1 p 0)) - RInt2 (poly2 a b c d P) a b c d) <= 3 * tiny * ((b - a) * (d - c)) * size P.
Proof. intros n0 n1 a b c d P H0 H1 Hab Hcd HP. apply (poly2_lemma gauss_table gauss_entries tiny tiny_range n0 n1 (2 * n0) (2 * n1)); try assumption; apply approx_gauss; assumption. Qed.
Print Assumptions C91_gauss_exact_2d.
(** In three dimensions only for boxes with the minimum corner at the origin (see C33). *)
Theorem C91_gauss_exact_3d_partial : forall n0 n1 n2 b d f P, (1 <= n0 <= 100)%nat -> (1 <= n1 <= 100)%nat -> (1 <= n2 <= 100)%nat -> 0 < b -> 0 < d -> 0 < f ->
  Forall (fun t => (fst (fst (snd t)) < 2 * n0 /\ snd (fst (snd t)) < 2 * n1 /\ snd (snd t) < 2 * n2)%nat) P ->
  exists q, create_tp gauss_table [Z.of_nat n0; Z.of_nat n1; Z.of_nat n2] (mk_box [0; 0; 0] [b; d; f]) = Ret q /\
    Rabs (integ q (fun p => poly3 0 b 0 d 0 f P (nth 0 p 0) (nth 1 p 0) (nth 2 p 0)) - RInt3 (poly3 0 b 0 d 0 f P) 0 b 0 d 0 f) <= 4 * tiny * (b * d * f) * size P.
Proof. intros n0 n1 n2 b d f P H0 H1 H2 Hb Hd Hf HP. apply (poly3_lemma gauss_table gauss_entries tiny tiny_range n0 n1 n2 (2 * n0) (2 * n1) (2 * n2)); try assumption; apply approx_gauss; assumption. Qed.
Print Assumptions C91_gauss_exact_3d_partial.
(** A polynomial of degree 2n is not integrated exactly (so the bound on the degree is the right one), n = 1: x^2. *)
Example C91_degree_sharp : exists q, create_tp gauss_table [1]%Z (mk_box [0] [1]) = Ret q /\
  integ q (fun p => nth 0 p 0 ^ 2) = / 4 /\ RInt (fun x => x ^ 2) 0 1 = / 3.
Proof.
  destruct (C33_1d_lemma gauss_table (mk_box [0] [1]) 1 gauss_entries ltac:(lia) ltac:(unfold n_max; lia)) as (q & E & _ & _ & G). exists q. split; [exact E|].
  split.
  - rewrite (G (fun x => x ^ 2)). cbn [bmin bmax nth]. unfold integ1. cbn [seq fold_right]. assert (X : x1d gauss_table 1 0 = / 2 /\ w1d gauss_table 1 0 = 1).
    { unfold x1d, w1d, gauss_table. rewrite <- decimal0, !map_nth. replace (nth ((1 - 1) * 1 + 2 * 0)%nat M_GaussData.gauss_literals (0, 0)%Z) with (5000000000000000000000000000000000, 34)%Z by (vm_compute; reflexivity).
      replace (nth ((1 - 1) * 1 + 2 * 0 + 1)%nat M_GaussData.gauss_literals (0, 0)%Z) with (1000000000000000000000000000000000, 33)%Z by (vm_compute; reflexivity). unfold decimal. cbn [fst snd].
      change (10 ^ 34)%Z with (10000000000000000000000000000000000)%Z. change (10 ^ 33)%Z with (1000000000000000000000000000000000)%Z. split; field. }
    destruct X as [-> ->]. field.
  - pose proof (is_RInt_rel 0 1 2 ltac:(lra)) as H. apply (is_RInt_ext _ (fun x => x ^ 2)) in H; [|intros x _; unfold rel; f_equal; field]. rewrite (is_RInt_unique _ _ _ _ H). change ((1 - 0) / (INR 2 + 1) = / 3). cbn [INR]. field.
Qed.

(** ** The quadrature of a full cell of an unfitted domain, in coordinates of the unit cell *)
Lemma full_rule : forall g sign ccell cfacet D s0 o n st id, built g sign ccell cfacet D s0 -> (length (breaks g) = 2 \/ length (breaks g) = 3)%nat ->
  (1 <= n <= 100)%nat -> reachable gauss_table (length (breaks g)) st -> cell_id g id -> is_full_cell D id = Ret true ->
  exists q st', create_quadrature gauss_table o D [id] (Z.of_nat n) st = Ret (q, st') /\ create_01 gauss_table (length (breaks g)) (Z.of_nat n) = Ret (combine (cq_pts q) (cq_wts q)).
Proof.
  intros g sign ccell cfacet D s0 o n st id HB Hd Hn Hs Hid Hf.
  destruct (C26_body gauss_table gauss_entries g sign ccell cfacet D s0 HB Hd o [id] (Z.of_nat n) st ltac:(unfold n_max; lia) Hs ltac:(apply Forall_cons; [exact Hid|apply Forall_nil])) as (q & st' & chunks & E & _ & _ & Ep & Ew & _ & _ & F2).
  exists q, st'. split; [exact E|]. inversion F2 as [|x c l m Hc Hr]; subst. inversion Hr; subst. destruct Hc as (_ & Hc & _). destruct (Hc Hf) as [Ec _]. cbn [map concat] in Ep, Ew. rewrite app_nil_r in Ep, Ew. rewrite Ep, Ew, Ec. f_equal.
  clear. induction c as [|[p w] c IH]; [reflexivity|]. cbn [map combine fst snd]. rewrite <- IH. reflexivity.
Qed.
Lemma create_01_tp tb n dim q : create_01 tb dim n = Ret q -> create_tp tb (repeat n dim) (unit_box dim) = Ret q.
Proof. unfold create_01, assert_. destruct (_ && _)%bool; [tauto|discriminate]. Qed.
Theorem C93_full_cell_2d : forall g sign ccell cfacet D s0 o n st id, built g sign ccell cfacet D s0 -> length (breaks g) = 2%nat ->
  (1 <= n <= 100)%nat -> reachable gauss_table 2 st -> cell_id g id -> is_full_cell D id = Ret true ->
  exists q st', create_quadrature gauss_table o D [id] (Z.of_nat n) st = Ret (q, st') /\
    forall P, Forall (fun t => (fst (snd t) < 2 * n /\ snd (snd t) < 2 * n)%nat) P ->
      Rabs (integ (combine (cq_pts q) (cq_wts q)) (fun p => poly2 0 1 0 1 P (nth 0 p 0) (nth 1 p 0)) - RInt2 (poly2 0 1 0 1 P) 0 1 0 1) <= 3 * tiny * size P.
Proof.
  intros g sign ccell cfacet D s0 o n st id HB Hd Hn Hs Hid Hf. destruct (full_rule g sign ccell cfacet D s0 o n st id HB ltac:(left; exact Hd) Hn ltac:(rewrite Hd; exact Hs) Hid Hf) as (q & st' & E & E01). exists q, st'. split; [exact E|]. intros P HP.
  rewrite Hd in E01. apply create_01_tp in E01. destruct (C91_gauss_exact_2d n n 0 1 0 1 P Hn Hn ltac:(lra) ltac:(lra) HP) as (q2 & E2 & B). change (repeat (Z.of_nat n) 2) with [Z.of_nat n; Z.of_nat n] in E01. change (unit_box 2) with (mk_box [0; 0] [1; 1]) in E01.
  rewrite E01 in E2. injection E2 as <-. replace (3 * tiny * ((1 - 0) * (1 - 0)) * size P) with (3 * tiny * size P) in B by ring. exact B.
Qed.
Print Assumptions C93_full_cell_2d.
Theorem C93_full_cell_3d : forall g sign ccell cfacet D s0 o n st id, built g sign ccell cfacet D s0 -> length (breaks g) = 3%nat ->
  (1 <= n <= 100)%nat -> reachable gauss_table 3 st -> cell_id g id -> is_full_cell D id = Ret true ->
  exists q st', create_quadrature gauss_table o D [id] (Z.of_nat n) st = Ret (q, st') /\
    forall P, Forall (fun t => (fst (fst (snd t)) < 2 * n /\ snd (fst (snd t)) < 2 * n /\ snd (snd t) < 2 * n)%nat) P ->
      Rabs (integ (combine (cq_pts q) (cq_wts q)) (fun p => poly3 0 1 0 1 0 1 P (nth 0 p 0) (nth 1 p 0) (nth 2 p 0)) - RInt3 (poly3 0 1 0 1 0 1 P) 0 1 0 1 0 1) <= 4 * tiny * size P.
Proof.
  intros g sign ccell cfacet D s0 o n st id HB Hd Hn Hs Hid Hf. destruct (full_rule g sign ccell cfacet D s0 o n st id HB ltac:(right; exact Hd) Hn ltac:(rewrite Hd; exact Hs) Hid Hf) as (q & st' & E & E01). exists q, st'. split; [exact E|]. intros P HP.
  rewrite Hd in E01. apply create_01_tp in E01. destruct (C91_gauss_exact_3d_partial n n n 1 1 1 P Hn Hn Hn ltac:(lra) ltac:(lra) ltac:(lra) HP) as (q2 & E2 & B). change (repeat (Z.of_nat n) 3) with [Z.of_nat n; Z.of_nat n; Z.of_nat n] in E01. change (unit_box 3) with (mk_box [0; 0; 0] [1; 1; 1]) in E01.
  rewrite E01 in E2. injection E2 as <-. replace (4 * tiny * (1 * 1 * 1) * size P) with (4 * tiny * size P) in B by ring. exact B.
Qed.
Print Assumptions C93_full_cell_3d.

(** ** C92: tanh-sinh *)
Theorem C92_tanh_sinh_shape : Z.of_nat (length tanh_sinh_table) = n_entries /\ forall n, (1 <= n <= 100)%nat -> well_shaped tanh_sinh_table n.
Proof.
  split; [exact tanh_sinh_entries|]. intros n Hn. pose proof (tanh_sinh_shape n Hn) as Sh. split; [|split]; intros i Hi; [apply (shape_range _ tanh_sinh_len n Hn Sh i Hi)|apply (shape_incr _ tanh_sinh_len n Hn Sh i Hi)|apply (shape_sym _ tanh_sinh_len n Hn Sh i Hi)].
Qed.
Print Assumptions C92_tanh_sinh_shape.
Lemma small_range : 0 <= / 10 ^ 30 <= 1 / 100.
Proof. lra. Qed.
(** Functions that are affine in each direction are integrated up to 10^-30. *)
Theorem C92_tanh_sinh_affine_1d : forall n a b P, (1 <= n <= 100)%nat -> a < b -> Forall (fun t => (snd t < 2)%nat) P ->
  exists q, create_tp tanh_sinh_table [Z.of_nat n] (mk_box [a] [b]) = Ret q /\
    Rabs (integ q (fun p => poly1 a b P (nth 0 p 0)) - RInt (poly1 a b P) a b) <= / 10 ^ 30 * (b - a) * size P.
Proof. intros n a b P Hn Hab HP. apply (poly1_lemma tanh_sinh_table tanh_sinh_entries _ small_range n 2); try assumption. apply approx_tanh_sinh, Hn. Qed.
Print Assumptions C92_tanh_sinh_affine_1d.
Theorem C92_tanh_sinh_affine_2d : forall n0 n1 a b c d P, (1 <= n0 <= 100)%nat -> (1 <= n1 <= 100)%nat -> a < b -> c < d ->
  Forall (fun t => (fst (snd t) < 2 /\ snd (snd t) < 2)%nat) P ->
  exists q, create_tp tanh_sinh_table [Z.of_nat n0; Z.of_nat n1] (mk_box [a; c] [b; d]) = Ret q /\
    Rabs (integ q (fun p => poly2 a b c d P (nth 0 p 0) (nth 1 p 0)) - RInt2 (poly2 a b c d P) a b c d) <= 3 * / 10 ^ 30 * ((b - a) * (d - c)) * size P.
Proof. intros n0 n1 a b c d P H0 H1 Hab Hcd HP. apply (poly2_lemma tanh_sinh_table tanh_sinh_entries _ small_range n0 n1 2 2); try assumption; apply approx_tanh_sinh; assumption. Qed.
Print Assumptions C92_tanh_sinh_affine_2d.
Theorem C92_tanh_sinh_affine_3d_partial : forall n0 n1 n2 b d f P, (1 <= n0 <= 100)%nat -> (1 <= n1 <= 100)%nat -> (1 <= n2 <= 100)%nat -> 0 < b -> 0 < d -> 0 < f ->
  Forall (fun t => (fst (fst (snd t)) < 2 /\ snd (fst (snd t)) < 2 /\ snd (snd t) < 2)%nat) P ->
  exists q, create_tp tanh_sinh_table [Z.of_nat n0; Z.of_nat n1; Z.of_nat n2] (mk_box [0; 0; 0] [b; d; f]) = Ret q /\
    Rabs (integ q (fun p => poly3 0 b 0 d 0 f P (nth 0 p 0) (nth 1 p 0) (nth 2 p 0)) - RInt3 (poly3 0 b 0 d 0 f P) 0 b 0 d 0 f) <= 4 * / 10 ^ 30 * (b * d * f) * size P.
Proof. intros n0 n1 n2 b d f P H0 H1 H2 Hb Hd Hf HP. apply (poly3_lemma tanh_sinh_table tanh_sinh_entries _ small_range n0 n1 n2 2 2 2); try assumption; apply approx_tanh_sinh; assumption. Qed.
Print Assumptions C92_tanh_sinh_affine_3d_partial.
(** A concrete polynomial of degree 3 with the rule of two points, on [-1,2]. *)
Example C91_nonvacuous : Forall (fun t : R * nat => (snd t < 2 * 2)%nat) [(1, 0%nat); (-3, 2%nat); (5, 3%nat)] /\ poly1 (-1) 2 [(1, 0%nat); (-3, 2%nat); (5, 3%nat)] 2 = 3.
Proof. split; [repeat constructor|]. unfold poly1, rel. cbn [fold_right fst snd pow]. field. Qed.
Example C93_full_nonvacuous : forall ccell cfacet, exists g D s, built g (fun _ _ => Sneg) ccell cfacet D s /\ length (breaks g) = 2%nat /\ cell_id g 0 /\ is_full_cell D 0 = Ret true.
Proof.
  intros ccell cfacet. destruct (demo_built (fun _ _ => Sneg) ccell cfacet) as (g & D & s & HB & Hn & Hb). exists g, D, s. split; [exact HB|]. split; [exact Hb|].
  assert (Hid : cell_id g 0) by (unfold cell_id; rewrite Hn; lia). split; [exact Hid|]. destruct (stat_cell _ _ _ _ _ _ HB 0%Z Hid) as (st & h & Hs & Hcr & _ & _).
  unfold is_full_cell. rewrite (is_cell_stat _ _ _ _ _ _ HB Cfull st 0%Z Hid Hs). inversion Hcr; subst; try discriminate. reflexivity.
Qed.
