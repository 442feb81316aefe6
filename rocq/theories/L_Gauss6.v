(** Tensor-product rules and polynomials. *)
From Coq Require Import Reals ZArith List Lia Lra Bool.
From Coquelicot Require Import Coquelicot.
From Verif Require Import M_GaussData M_TanhSinhData M_Tables L_GaussHints L_Gauss L_Gauss2 L_Gauss3 L_Gauss4 L_Gauss5 M_Quad S_Quad S_Gauss L_QuadTP L_Quad L_QuadRun L_QuadProps.
Import ListNotations.
Local Open Scope R_scope.

Lemma is_RInt_rel a b m : a < b -> is_RInt (fun x => rel a b x ^ m) a b ((b - a) / (INR m + 1)).
Proof.
  intros Hab. pose proof (pos_INR m) as Pm. replace ((b - a) / (INR m + 1)) with (minus ((b - a) * rel a b b ^ S m / (INR m + 1)) ((b - a) * rel a b a ^ S m / (INR m + 1))).
  - apply (is_RInt_derive (fun x => (b - a) * rel a b x ^ S m / (INR m + 1))).
    + intros x _. unfold rel. auto_derive; [exact I|]. replace (match m with 0%nat => 1 | S _ => INR m + 1 end) with (INR m + 1) by (destruct m; [cbn; ring|reflexivity]).
      replace ((x + - a) * / (b + - a)) with ((x - a) / (b - a)) by reflexivity. set (s := ((x - a) / (b - a)) ^ m). unfold s. field_simplify_eq; [|lra]. unfold Rminus, Rdiv. ring.
    + intros x _. apply (ex_derive_continuous (fun x => rel a b x ^ m)). unfold rel. auto_derive. exact I.
  - unfold minus, plus, opp, rel. cbn [AbelianGroup.plus AbelianGroup.opp]. cbn. replace (a - a) with 0 by ring. unfold Rdiv. rewrite Rinv_r, Rmult_0_l, pow1 by lra. field. lra.
Qed.
Definition approx (tb : list R) (n K : nat) (d : R) : Prop := forall a b, a < b -> forall m, (m < K)%nat -> Rabs (integ1 tb n a b (fun x => rel a b x ^ m) - (b - a) / (INR m + 1)) <= d * (b - a).
Lemma rel_at a b x : a < b -> rel a b (a + x * (b - a)) = x.
Proof. intros H. unfold rel. field. lra. Qed.
Lemma integ1_rel tb n a b m : a < b -> integ1 tb n a b (fun x => rel a b x ^ m) = (b - a) * fold_right (fun i s => w1d tb n i * x1d tb n i ^ m + s) 0 (seq 0 n).
Proof. intros H. unfold integ1. induction (seq 0 n) as [|i l IH]; [cbn; ring|]. cbn [fold_right]. rewrite IH, rel_at by exact H. ring. Qed.
Lemma approx_of lits n K d : length lits = (100 * 101)%nat -> (1 <= n <= 100)%nat -> length (pairs_up (rule_lits lits n)) = n ->
  (forall k, (k < K)%nat -> Rabs (rsum (mom k) (pairs_up (rule_lits lits n)) - (if Nat.even k then / (INR k + 1) else 0)) <= d) -> approx (map decimal lits) n K d.
Proof.
  intros Hl Hn Hr H a b Hab m Hm. rewrite integ1_rel by exact Hab. rewrite (table_sum lits Hl n (fun x => x ^ m) Hn Hr).
  destruct (mixed_powers _ K d H m 0%nat ltac:(lia)) as (I0 & A & B).
  assert (EI : I0 = / (INR m + 1)).
  { pose proof (is_RInt_rel 0 1 m ltac:(lra)) as C. apply (is_RInt_ext _ (fun x => (2 * x - 1) ^ 0 * x ^ m)) in C.
    - rewrite <- (is_RInt_unique _ _ _ _ B), (is_RInt_unique _ _ _ _ C). field. pose proof (pos_INR m). lra.
    - intros x _. unfold rel. rewrite pow_O, Rmult_1_l. f_equal. field. }
  subst I0. rewrite (rsum_ext _ (fun q => wnode q * decimal (fst q) ^ m)) in A by (intros; rewrite pow_O; ring).
  replace ((b - a) * rsum (fun q : node => wnode q * decimal (fst q) ^ m) (pairs_up (rule_lits lits n)) - (b - a) / (INR m + 1)) with ((b - a) * (rsum (fun q : node => wnode q * decimal (fst q) ^ m) (pairs_up (rule_lits lits n)) - / (INR m + 1))) by (unfold Rdiv; ring).
  rewrite Rabs_mult, Rabs_right by lra. rewrite (Rmult_comm d). apply Rmult_le_compat_l; [lra|exact A].
Qed.
Lemma approx_gauss n : (1 <= n <= 100)%nat -> approx gauss_table n (2 * n) tiny.
Proof.
  intros Hn. apply approx_of; [exact gauss_len|exact Hn|apply (sh_len _ _ (gauss_shape n Hn))|]. intros k Hk. apply (moment_gauss n _ (nth (n - 1) gauss_hints [])); [lia|apply gauss_rule, Hn|exact Hk].
Qed.
(** Tanh-sinh: degree 1. *)
Lemma wsum_real : forall l, forallb node_ok l = true -> rsum wnode l = IZR (fold_right Z.add 0%Z (map (fun q : node => fst (snd q) * p10 (70 - snd (snd q)))%Z l)) / IZR (10 ^ 70).
Proof.
  assert (P70 : 0 < IZR (10 ^ 70)) by (apply p10_pos; lia).
  induction l as [|q l IH]; intros H; [cbn [rsum fold_right map]; unfold Rdiv; rewrite Rmult_0_l; reflexivity|]. cbn [forallb] in H. apply andb_prop in H as [H1 H2]. destruct (node_range q H1) as (_ & _ & _ & E). cbn [rsum fold_right map]. fold (rsum wnode l). rewrite (IH H2), plus_IZR, mult_IZR, (p10_ok (70 - snd (snd q))) by lia.
  pose proof (p10_pos _ E) as Pe. pose proof (p10_pos (70 - snd (snd q)) ltac:(lia)) as Pd. assert (Er : IZR (10 ^ 70) = IZR (10 ^ snd (snd q)) * IZR (10 ^ (70 - snd (snd q)))) by (rewrite <- mult_IZR, <- Z.pow_add_r by lia; do 2 f_equal; lia).
  unfold wnode, decimal. rewrite Er in *. set (u := IZR (10 ^ snd (snd q))) in *. set (v := IZR (10 ^ (70 - snd (snd q)))) in *. set (m := IZR (fst (snd q))). set (z := IZR (fold_right Z.add 0%Z _)). clearbody u v m z. field. split; lra.
Qed.
Lemma approx_tanh_sinh n : (1 <= n <= 100)%nat -> approx tanh_sinh_table n 2 (/ 10 ^ 30).
Proof.
  intros Hn. pose proof (tanh_sinh_shape n Hn) as Sh. apply approx_of; [exact tanh_sinh_len|exact Hn|apply (sh_len _ _ Sh)|]. intros k Hk. assert (Hd : INR (Nat.div2 n) <= 50) by (replace 50 with (INR 50) by (cbn; lra); apply le_INR; pose proof (div2_le n); lia). destruct k as [|[|k]]; [| |lia].
  - pose proof (rule_of tanh_sinh_literals _ tanh_sinh_weights n Hn) as W. unfold wsum_ok in W. apply Z.leb_le, IZR_le in W. rewrite abs_IZR, minus_IZR, !p10_ok in W by lia. cbn [Nat.even INR].
    rewrite (rsum_ext _ wnode) by (intros; rewrite pow_O; ring). rewrite wsum_real by (apply (sh_ok _ _ Sh)). set (z := IZR (fold_right Z.add 0%Z _)) in *. apply Rabs_le_between in W. assert (E70 : IZR (10 ^ 70) = 10 ^ 70) by (change 70%Z with (Z.of_nat 70); rewrite <- pow_IZR; reflexivity). assert (E40 : IZR (10 ^ 40) = 10 ^ 40) by (change 40%Z with (Z.of_nat 40); rewrite <- pow_IZR; reflexivity).
    rewrite E70, E40 in *. apply Rabs_le_between. lra.
  - cbn [Nat.even]. rewrite Rminus_0_r. eapply Rle_trans; [apply (moment_odd n _ 0 Sh)|]. cbn [Nat.mul Nat.add INR]. pose proof eta_pos. pose proof (pos_INR (Nat.div2 n)). apply (Rle_trans _ (50 * ((1 + 2 * 1) * eta))); [apply Rmult_le_compat_r; [lra|exact Hd]|unfold eta; lra].
Qed.

(** ** Linear combinations *)
Lemma is_RInt_terms {A} (f : A -> R -> R) (J : A -> R) a b (P : list (R * A)) : (forall t, In t P -> is_RInt (f (snd t)) a b (J (snd t))) ->
  is_RInt (fun x => fold_right (fun t s => fst t * f (snd t) x + s) 0 P) a b (fold_right (fun t s => fst t * J (snd t) + s) 0 P).
Proof.
  induction P as [|t P IH]; intros H.
  - cbn [fold_right]. pose proof (@is_RInt_const R_NormedModule a b 0) as C. change (scal (b - a) 0) with ((b - a) * 0) in C. rewrite Rmult_0_r in C. exact C.
  - cbn [fold_right]. apply (@is_RInt_plus R_NormedModule); [apply (@is_RInt_scal R_NormedModule); apply H; left; reflexivity|apply IH; intros; apply H; right; assumption].
Qed.
Lemma integ_terms {A} (q : rule) (f : A -> list R -> R) (P : list (R * A)) : integ q (fun p => fold_right (fun t s => fst t * f (snd t) p + s) 0 P) = fold_right (fun t s => fst t * integ q (f (snd t)) + s) 0 P.
Proof.
  induction P as [|t P IH]; cbn [fold_right].
  - unfold integ. induction q as [|nw q IHq]; [reflexivity|]. cbn [fold_right]. rewrite IHq. ring.
  - rewrite <- IH. unfold integ. clear IH. induction q as [|nw q IHq]; [cbn; ring|]. cbn [fold_right]. rewrite IHq. ring.
Qed.
Lemma terms_close {A} (I J : A -> R) d (P : list (R * A)) : 0 <= d -> (forall t, In t P -> Rabs (I (snd t) - J (snd t)) <= d) ->
  Rabs (fold_right (fun t s => fst t * I (snd t) + s) 0 P - fold_right (fun t s => fst t * J (snd t) + s) 0 P) <= d * size P.
Proof.
  intros Hd. induction P as [|t P IH]; intros H; cbn [fold_right size].
  - rewrite Rminus_0_r, Rabs_R0. lra.
  - fold (size P). specialize (IH ltac:(intros; apply H; right; assumption)). specialize (H t (or_introl eq_refl)). set (x := fold_right _ 0 P) in *. set (y := fold_right (fun t s => fst t * J (snd t) + s) 0 P) in *.
    replace (fst t * I (snd t) + x - (fst t * J (snd t) + y)) with (fst t * (I (snd t) - J (snd t)) + (x - y)) by ring. eapply Rle_trans; [apply Rabs_triang|]. rewrite Rabs_mult. pose proof (Rabs_pos (fst t)). nra.
Qed.
Lemma approx_bounds tb n K d a b m : approx tb n K d -> a < b -> (m < K)%nat -> let L := b - a in
  0 < (b - a) / (INR m + 1) <= L /\ Rabs (integ1 tb n a b (fun x => rel a b x ^ m) - (b - a) / (INR m + 1)) <= d * L.
Proof.
  intros H Hab Hm L. split; [|apply H; assumption]. pose proof (pos_INR m) as Pm. split; [apply Rmult_lt_0_compat; [lra|apply Rinv_0_lt_compat; lra]|]. unfold L. apply (Rmult_le_reg_r (INR m + 1)); [lra|]. unfold Rdiv. rewrite Rmult_assoc, Rinv_l by lra. nra.
Qed.
Lemma prod2 a a' b b' d L M : 0 <= d <= 1 / 100 -> 0 < b <= L -> 0 < b' <= M -> Rabs (a - b) <= d * L -> Rabs (a' - b') <= d * M -> Rabs (a * a' - b * b') <= (2 * d + d * d) * (L * M).
Proof.
  intros Hd Hb Hb' A A'. replace (a * a' - b * b') with ((a - b) * (a' - b') + (a - b) * b' + b * (a' - b')) by ring.
  eapply Rle_trans; [apply Rabs_triang|]. eapply Rle_trans; [apply Rplus_le_compat_r, Rabs_triang|]. rewrite !Rabs_mult, (Rabs_right b'), (Rabs_right b) by lra.
  pose proof (Rabs_pos (a - b)). pose proof (Rabs_pos (a' - b')). assert (X1 : Rabs (a - b) * Rabs (a' - b') <= (d * L) * (d * M)) by (apply Rmult_le_compat; assumption).
  assert (X2 : Rabs (a - b) * b' <= (d * L) * M) by (apply Rmult_le_compat; lra). assert (X3 : b * Rabs (a' - b') <= L * (d * M)) by (apply Rmult_le_compat; lra). lra.
Qed.
Lemma prod3 a a' a'' b b' b'' d L M N : 0 <= d <= 1 / 100 -> 0 < b <= L -> 0 < b' <= M -> 0 < b'' <= N -> Rabs (a - b) <= d * L -> Rabs (a' - b') <= d * M -> Rabs (a'' - b'') <= d * N ->
  Rabs (a * a' * a'' - b * b' * b'') <= (3 * d + 3 * (d * d) + d * d * d) * (L * M * N).
Proof.
  intros Hd Hb Hb' Hb'' A A' A''. pose proof (prod2 a a' b b' d L M Hd Hb Hb' A A') as P. set (e := 2 * d + d * d) in *.
  replace (a * a' * a'' - b * b' * b'') with ((a * a' - b * b') * (a'' - b'') + (a * a' - b * b') * b'' + (b * b') * (a'' - b'')) by ring.
  eapply Rle_trans; [apply Rabs_triang|]. eapply Rle_trans; [apply Rplus_le_compat_r, Rabs_triang|]. assert (B : 0 < b * b' <= L * M) by (split; [apply Rmult_lt_0_compat; lra|apply Rmult_le_compat; lra]).
  rewrite !Rabs_mult, (Rabs_right b''), (Rabs_right b), (Rabs_right b') by lra. pose proof (Rabs_pos (a * a' - b * b')). pose proof (Rabs_pos (a'' - b'')).
  assert (X1 : Rabs (a * a' - b * b') * Rabs (a'' - b'') <= (e * (L * M)) * (d * N)) by (apply Rmult_le_compat; assumption).
  assert (X2 : Rabs (a * a' - b * b') * b'' <= (e * (L * M)) * N) by (apply Rmult_le_compat; lra). assert (X3 : b * b' * Rabs (a'' - b'') <= (L * M) * (d * N)) by (apply Rmult_le_compat; lra).
  unfold e in *. eapply Rle_trans; [apply Rplus_le_compat; [apply Rplus_le_compat; [exact X1|exact X2]|exact X3]|]. right. ring.
Qed.
Section Table.
Context (tb : list R) (Htb : Z.of_nat (length tb) = n_entries) (d : R) (Hd : 0 <= d <= 1 / 100).
Lemma poly1_lemma n K a b P : (1 <= n <= 100)%nat -> approx tb n K d -> a < b -> Forall (fun t => (snd t < K)%nat) P ->
  exists q, create_tp tb [Z.of_nat n] (mk_box [a] [b]) = Ret q /\ Rabs (integ q (fun p => poly1 a b P (nth 0 p 0)) - RInt (poly1 a b P) a b) <= d * (b - a) * size P.
Proof.
  intros Hn Ha Hab HP. destruct (C33_1d_lemma tb (mk_box [a] [b]) n Htb ltac:(lia) ltac:(unfold n_max; lia)) as (q & E & _ & _ & G). exists q. split; [exact E|]. rewrite Forall_forall in HP. cbn [bmin bmax nth] in G.
  unfold poly1. rewrite (is_RInt_unique _ _ _ _ (is_RInt_terms (fun m x => rel a b x ^ m) (fun m => (b - a) / (INR m + 1)) a b P ltac:(intros; apply is_RInt_rel, Hab))).
  rewrite (integ_terms q (fun m p => rel a b (nth 0 p 0) ^ m) P). apply (terms_close (fun m => integ q (fun p => rel a b (nth 0 p 0) ^ m)) (fun m => (b - a) / (INR m + 1))); [apply Rmult_le_pos; lra|]. intros t Ht. rewrite (G (fun x => rel a b x ^ snd t)). apply (Ha a b Hab), HP, Ht.
Qed.
Lemma poly2_lemma n0 n1 K0 K1 a b c e P : (1 <= n0 <= 100)%nat -> (1 <= n1 <= 100)%nat -> approx tb n0 K0 d -> approx tb n1 K1 d -> a < b -> c < e -> Forall (fun t => (fst (snd t) < K0 /\ snd (snd t) < K1)%nat) P ->
  exists q, create_tp tb [Z.of_nat n0; Z.of_nat n1] (mk_box [a; c] [b; e]) = Ret q /\
    Rabs (integ q (fun p => poly2 a b c e P (nth 0 p 0) (nth 1 p 0)) - RInt2 (poly2 a b c e P) a b c e) <= 3 * d * ((b - a) * (e - c)) * size P.
Proof.
  intros Hn0 Hn1 H0 H1 Hab Hce HP. destruct (C33_2d_lemma tb (mk_box [a; c] [b; e]) n0 n1 Htb ltac:(lia) ltac:(unfold n_max; lia) ltac:(lia) ltac:(unfold n_max; lia)) as (q & E & _ & _ & G). exists q. split; [exact E|]. rewrite Forall_forall in HP. cbn [bmin bmax nth] in G.
  assert (EI : RInt2 (poly2 a b c e P) a b c e = fold_right (fun t s => fst t * ((b - a) / (INR (fst (snd t)) + 1) * ((e - c) / (INR (snd (snd t)) + 1))) + s) 0 P).
  { unfold RInt2. apply is_RInt_unique.
    apply (is_RInt_ext (fun y => fold_right (fun t s => fst t * ((fun kl y => (b - a) / (INR (fst kl) + 1) * rel c e y ^ snd kl) (snd t) y) + s) 0 P)).
    - intros y _. symmetry. apply is_RInt_unique. apply (is_RInt_terms (fun kl x => rel a b x ^ fst kl * rel c e y ^ snd kl) (fun kl => (b - a) / (INR (fst kl) + 1) * rel c e y ^ snd kl)).
      intros t _. apply (is_RInt_ext (fun x => scal (rel c e y ^ snd (snd t)) (rel a b x ^ fst (snd t)))); [intros x _; apply Rmult_comm|]. rewrite Rmult_comm. apply (@is_RInt_scal R_NormedModule), is_RInt_rel, Hab.
    - apply (is_RInt_terms (fun kl y => (b - a) / (INR (fst kl) + 1) * rel c e y ^ snd kl) (fun kl => (b - a) / (INR (fst kl) + 1) * ((e - c) / (INR (snd kl) + 1)))). intros t _. apply (@is_RInt_scal R_NormedModule), is_RInt_rel, Hce. }
  rewrite EI. unfold poly2. rewrite (integ_terms q (fun kl p => rel a b (nth 0 p 0) ^ fst kl * rel c e (nth 1 p 0) ^ snd kl) P).
  apply (terms_close (fun kl => integ q (fun p => rel a b (nth 0 p 0) ^ fst kl * rel c e (nth 1 p 0) ^ snd kl)) (fun kl => (b - a) / (INR (fst kl) + 1) * ((e - c) / (INR (snd kl) + 1)))).
  { apply Rmult_le_pos; [lra|]. apply Rmult_le_pos; lra. }
  intros t Ht. destruct (HP t Ht) as [Hk Hl]. rewrite (G (fun x => rel a b x ^ fst (snd t)) (fun y => rel c e y ^ snd (snd t))).
  destruct (approx_bounds tb n0 K0 d a b _ H0 Hab Hk) as [B0 A0]. destruct (approx_bounds tb n1 K1 d c e _ H1 Hce Hl) as [B1 A1].
  eapply Rle_trans; [apply (prod2 _ _ _ _ d (b - a) (e - c)); assumption|]. apply Rmult_le_compat_r; [apply Rmult_le_pos; lra|]. nra.
Qed.
Lemma poly3_lemma n0 n1 n2 K0 K1 K2 b e h P : (1 <= n0 <= 100)%nat -> (1 <= n1 <= 100)%nat -> (1 <= n2 <= 100)%nat -> approx tb n0 K0 d -> approx tb n1 K1 d -> approx tb n2 K2 d -> 0 < b -> 0 < e -> 0 < h ->
  Forall (fun t => (fst (fst (snd t)) < K0 /\ snd (fst (snd t)) < K1 /\ snd (snd t) < K2)%nat) P ->
  exists q, create_tp tb [Z.of_nat n0; Z.of_nat n1; Z.of_nat n2] (mk_box [0; 0; 0] [b; e; h]) = Ret q /\
    Rabs (integ q (fun p => poly3 0 b 0 e 0 h P (nth 0 p 0) (nth 1 p 0) (nth 2 p 0)) - RInt3 (poly3 0 b 0 e 0 h P) 0 b 0 e 0 h) <= 4 * d * (b * e * h) * size P.
Proof.
  intros Hn0 Hn1 Hn2 H0 H1 H2 Hb He Hh HP. destruct (C33_3d_lemma tb (mk_box [0; 0; 0] [b; e; h]) n0 n1 n2 Htb ltac:(lia) ltac:(unfold n_max; lia) ltac:(lia) ltac:(unfold n_max; lia) ltac:(lia) ltac:(unfold n_max; lia) eq_refl) as (q & E & _ & _ & G). exists q. split; [exact E|]. rewrite Forall_forall in HP. cbn [bmin bmax nth] in G.
  set (J := fun kl : nat * nat * nat => (b - 0) / (INR (fst (fst kl)) + 1) * ((e - 0) / (INR (snd (fst kl)) + 1)) * ((h - 0) / (INR (snd kl) + 1))).
  assert (EI : RInt3 (poly3 0 b 0 e 0 h P) 0 b 0 e 0 h = fold_right (fun t s => fst t * J (snd t) + s) 0 P).
  { unfold RInt3. apply is_RInt_unique.
    apply (is_RInt_ext (fun z => fold_right (fun t s => fst t * ((fun kl z => (b - 0) / (INR (fst (fst kl)) + 1) * ((e - 0) / (INR (snd (fst kl)) + 1)) * rel 0 h z ^ snd kl) (snd t) z) + s) 0 P)).
    - intros z _. symmetry. unfold RInt2. apply is_RInt_unique.
      apply (is_RInt_ext (fun y => fold_right (fun t s => fst t * ((fun kl y => (b - 0) / (INR (fst (fst kl)) + 1) * (rel 0 e y ^ snd (fst kl)) * rel 0 h z ^ snd kl) (snd t) y) + s) 0 P)).
      + intros y _. symmetry. apply is_RInt_unique. apply (is_RInt_terms (fun kl x => rel 0 b x ^ fst (fst kl) * rel 0 e y ^ snd (fst kl) * rel 0 h z ^ snd kl) (fun kl => (b - 0) / (INR (fst (fst kl)) + 1) * rel 0 e y ^ snd (fst kl) * rel 0 h z ^ snd kl)).
        intros t _. apply (is_RInt_ext (fun x => scal (rel 0 e y ^ snd (fst (snd t)) * rel 0 h z ^ snd (snd t)) (rel 0 b x ^ fst (fst (snd t))))); [intros x _; rewrite (Rmult_assoc (rel 0 b x ^ _)); apply Rmult_comm|].
        set (A := rel 0 e y ^ snd (fst (snd t)) * rel 0 h z ^ snd (snd t)). set (X := (b - 0) / (INR (fst (fst (snd t))) + 1)). replace (X * rel 0 e y ^ snd (fst (snd t)) * rel 0 h z ^ snd (snd t)) with (A * X) by (unfold A; ring). apply (@is_RInt_scal R_NormedModule), is_RInt_rel, Hb.
      + apply (is_RInt_terms (fun kl y => (b - 0) / (INR (fst (fst kl)) + 1) * rel 0 e y ^ snd (fst kl) * rel 0 h z ^ snd kl) (fun kl => (b - 0) / (INR (fst (fst kl)) + 1) * ((e - 0) / (INR (snd (fst kl)) + 1)) * rel 0 h z ^ snd kl)).
        intros t _. set (A := (b - 0) / (INR (fst (fst (snd t))) + 1)). set (B := rel 0 h z ^ snd (snd t)).
        apply (is_RInt_ext (fun y => scal (A * B) (rel 0 e y ^ snd (fst (snd t))))); [intros y _; change (A * B * rel 0 e y ^ snd (fst (snd t)) = A * rel 0 e y ^ snd (fst (snd t)) * B); ring|].
        replace (A * ((e - 0) / (INR (snd (fst (snd t))) + 1)) * B) with (A * B * ((e - 0) / (INR (snd (fst (snd t))) + 1))) by ring. apply (@is_RInt_scal R_NormedModule), is_RInt_rel, He.
    - apply (is_RInt_terms (fun kl z => (b - 0) / (INR (fst (fst kl)) + 1) * ((e - 0) / (INR (snd (fst kl)) + 1)) * rel 0 h z ^ snd kl) J). intros t _. apply (@is_RInt_scal R_NormedModule), is_RInt_rel, Hh. }
  rewrite EI. unfold poly3. rewrite (integ_terms q (fun kl p => rel 0 b (nth 0 p 0) ^ fst (fst kl) * rel 0 e (nth 1 p 0) ^ snd (fst kl) * rel 0 h (nth 2 p 0) ^ snd kl) P).
  apply (terms_close (fun kl => integ q (fun p => rel 0 b (nth 0 p 0) ^ fst (fst kl) * rel 0 e (nth 1 p 0) ^ snd (fst kl) * rel 0 h (nth 2 p 0) ^ snd kl)) J).
  { apply Rmult_le_pos; [lra|]. apply Rmult_le_pos; [apply Rmult_le_pos|]; lra. }
  intros t Ht. destruct (HP t Ht) as (Hk & Hl & Hm). rewrite (G (fun x => rel 0 b x ^ fst (fst (snd t))) (fun y => rel 0 e y ^ snd (fst (snd t))) (fun z => rel 0 h z ^ snd (snd t))).
  destruct (approx_bounds tb n0 K0 d 0 b _ H0 Hb Hk) as [B0 A0]. destruct (approx_bounds tb n1 K1 d 0 e _ H1 He Hl) as [B1 A1]. destruct (approx_bounds tb n2 K2 d 0 h _ H2 Hh Hm) as [B2 A2].
  rewrite !Rminus_0_r in *. unfold J. rewrite !Rminus_0_r.
  eapply Rle_trans; [apply (prod3 _ _ _ _ _ _ d b e h); assumption|]. apply Rmult_le_compat_r; [apply Rmult_le_pos; [apply Rmult_le_pos|]; lra|]. nra.
Qed.
End Table.
