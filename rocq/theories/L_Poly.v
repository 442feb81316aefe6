(** Sums, dot products, outer products of basis vectors, Bernstein polynomials. *)
From Coq Require Import Reals List Lia Lra Binomial.
From Coquelicot Require Import Coquelicot.
From Verif Require Import M_Poly S_Poly L_Real L_Point L_BBox L_TensorNat.
Import ListNotations.
Local Close Scope Z_scope.
Local Open Scope R_scope.

(** ** Sums *)
Definition rsum (l : list R) : R := fold_right Rplus 0 l.
Arguments rsum l : simpl never.
Definition bigsum (n : nat) (f : nat -> R) : R := rsum (map f (seq 0 n)).

Lemma rsum_app l m : rsum (l ++ m) = rsum l + rsum m.
Proof. induction l as [|a l IH]; simpl; [unfold rsum; simpl; ring|]. unfold rsum in *. simpl. rewrite IH. ring. Qed.
Lemma rsum_cons a l : rsum (a :: l) = a + rsum l. Proof. reflexivity. Qed.
Lemma rsum_ext {A} (f g : A -> R) l : (forall x, In x l -> f x = g x) -> rsum (map f l) = rsum (map g l).
Proof. intros H. f_equal. apply map_ext_in. exact H. Qed.
Lemma rsum_plus {A} (f g : A -> R) l : rsum (map (fun x => f x + g x) l) = rsum (map f l) + rsum (map g l).
Proof. induction l as [|a l IH]; simpl; [unfold rsum; simpl; ring|]. rewrite !rsum_cons, IH. ring. Qed.
Lemma rsum_scal {A} (f : A -> R) c l : rsum (map (fun x => c * f x) l) = c * rsum (map f l).
Proof. induction l as [|a l IH]; simpl; [unfold rsum; simpl; ring|]. rewrite !rsum_cons, IH. ring. Qed.
Lemma rsum_scal_r {A} (f : A -> R) c l : rsum (map (fun x => f x * c) l) = rsum (map f l) * c.
Proof. induction l as [|a l IH]; simpl; [unfold rsum; simpl; ring|]. rewrite !rsum_cons, IH. ring. Qed.
Lemma rsum_zero {A} (f : A -> R) l : (forall x, In x l -> f x = 0) -> rsum (map f l) = 0.
Proof. induction l as [|a l IH]; intros H; simpl; [reflexivity|]. rewrite rsum_cons, IH, H; [ring|left; reflexivity|]. intros; apply H; right; assumption. Qed.
Lemma rsum_flat_map {A B} (f : B -> R) (g : A -> list B) l : rsum (map f (flat_map g l)) = rsum (map (fun a => rsum (map f (g a))) l).
Proof. induction l as [|a l IH]; simpl; [reflexivity|]. rewrite map_app, rsum_app, rsum_cons, IH. reflexivity. Qed.
Lemma rsum_swap {A B} (f : A -> B -> R) l m : rsum (map (fun a => rsum (map (f a) m)) l) = rsum (map (fun b => rsum (map (fun a => f a b) l)) m).
Proof.
  induction l as [|a l IH]; simpl.
  - symmetry. apply rsum_zero. intros; reflexivity.
  - rewrite rsum_cons, IH, <- rsum_plus. apply rsum_ext. intros; reflexivity.
Qed.
Lemma rsum_nonneg {A} (f : A -> R) l : (forall x, In x l -> 0 <= f x) -> 0 <= rsum (map f l).
Proof. induction l as [|a l IH]; intros H; simpl; [unfold rsum; simpl; lra|]. rewrite rsum_cons. generalize (H a (or_introl eq_refl)) (IH (fun x Hx => H x (or_intror Hx))). lra. Qed.
Lemma rsum_le {A} (f g : A -> R) l : (forall x, In x l -> f x <= g x) -> rsum (map f l) <= rsum (map g l).
Proof. induction l as [|a l IH]; intros H; simpl; [unfold rsum; simpl; lra|]. rewrite !rsum_cons. generalize (H a (or_introl eq_refl)) (IH (fun x Hx => H x (or_intror Hx))). lra. Qed.
Lemma rsum_one_pos {A} (f : A -> R) l x : (forall y, In y l -> 0 <= f y) -> In x l -> f x <= rsum (map f l).
Proof.
  induction l as [|a l IH]; intros H Hx; [destruct Hx|]. simpl. rewrite rsum_cons. destruct Hx as [-> | Hx].
  - generalize (rsum_nonneg f l (fun y Hy => H y (or_intror Hy))). lra.
  - generalize (IH (fun y Hy => H y (or_intror Hy)) Hx) (H a (or_introl eq_refl)). lra.
Qed.
Lemma rsum_rev l : rsum (rev l) = rsum l.
Proof. induction l as [|a l IH]; simpl; [reflexivity|]. rewrite rsum_app, IH, rsum_cons. unfold rsum. simpl. ring. Qed.
(** all summands vanish except one *)
Lemma rsum_single {A} (f : A -> R) l x : NoDup l -> In x l -> (forall y, In y l -> y <> x -> f y = 0) -> rsum (map f l) = f x.
Proof.
  induction l as [|a l IH]; intros ND Hx H; [destruct Hx|]. inversion ND; subst. simpl. rewrite rsum_cons. destruct Hx as [-> | Hx].
  - rewrite rsum_zero; [ring|]. intros y Hy. apply H; [right; assumption|]. intros ->. contradiction.
  - rewrite IH; auto. { rewrite H; [ring|left; reflexivity|]. intros ->. contradiction. } intros; apply H; [right|]; assumption.
Qed.

Lemma bigsum_S n f : bigsum (S n) f = bigsum n f + f n.
Proof. unfold bigsum. rewrite seq_S, map_app, rsum_app. simpl. unfold rsum at 2. simpl. ring. Qed.
Lemma bigsum_S_l n f : bigsum (S n) f = f O + bigsum n (fun i => f (S i)).
Proof. unfold bigsum. simpl. rewrite rsum_cons, <- seq_shift, map_map. reflexivity. Qed.
Lemma bigsum_0 f : bigsum 0 f = 0. Proof. reflexivity. Qed.
Lemma bigsum_ext n f g : (forall i, (i < n)%nat -> f i = g i) -> bigsum n f = bigsum n g.
Proof. intros H. apply rsum_ext. intros x Hx. apply in_seq in Hx. apply H. lia. Qed.
Lemma bigsum_plus n f g : bigsum n (fun i => f i + g i) = bigsum n f + bigsum n g. Proof. apply rsum_plus. Qed.
Lemma bigsum_scal n f c : bigsum n (fun i => c * f i) = c * bigsum n f. Proof. apply rsum_scal. Qed.
Lemma bigsum_scal_r n f c : bigsum n (fun i => f i * c) = bigsum n f * c. Proof. apply rsum_scal_r. Qed.
Lemma bigsum_zero n f : (forall i, (i < n)%nat -> f i = 0) -> bigsum n f = 0.
Proof. intros H. apply rsum_zero. intros x Hx. apply in_seq in Hx. apply H. lia. Qed.
Lemma bigsum_single n f k : (k < n)%nat -> (forall i, (i < n)%nat -> i <> k -> f i = 0) -> bigsum n f = f k.
Proof.
  intros Hk H. apply rsum_single; [apply seq_NoDup|apply in_seq; lia|]. intros y Hy Hn. apply H; [apply in_seq in Hy; lia|exact Hn].
Qed.
Lemma bigsum_split a b f : bigsum (a + b) f = bigsum a f + bigsum b (fun i => f (a + i)%nat).
Proof.
  induction b as [|b IH]; [rewrite Nat.add_0_r, bigsum_0; ring|]. rewrite Nat.add_succ_r, !bigsum_S, IH. ring.
Qed.
Lemma bigsum_nonneg n f : (forall i, (i < n)%nat -> 0 <= f i) -> 0 <= bigsum n f.
Proof. intros H. apply rsum_nonneg. intros x Hx. apply in_seq in Hx. apply H. lia. Qed.

(** ** Dot products *)
Fixpoint dot (a b : list R) : R := match a, b with x :: a', y :: b' => x * y + dot a' b' | _, _ => 0 end.
Lemma dot_bigsum a : forall b, length a = length b -> dot a b = bigsum (length a) (fun k => nth k a 0 * nth k b 0).
Proof.
  induction a as [|x a IH]; intros [|y b] HL; try discriminate; [reflexivity|]. cbn [length]. rewrite bigsum_S_l. cbn [nth dot].
  rewrite IH by (simpl in HL; lia). reflexivity.
Qed.
Lemma dot_nil_r a : dot a [] = 0. Proof. destruct a; reflexivity. Qed.
Lemma dot_app a b c d : length a = length c -> dot (a ++ b) (c ++ d) = dot a c + dot b d.
Proof. revert c. induction a as [|x a IH]; intros [|y c] HL; try discriminate; simpl; [ring|]. rewrite IH by (simpl in HL; lia). ring. Qed.
Lemma dot_comm a : forall b, dot a b = dot b a.
Proof. induction a as [|x a IH]; intros [|y b]; simpl; auto. rewrite IH. ring. Qed.
Lemma dot_scal_r a : forall b c, dot a (map (fun y => c * y) b) = c * dot a b.
Proof. induction a as [|x a IH]; intros [|y b] c; simpl; try ring. rewrite IH. ring. Qed.
Lemma dot_map_l {A} (f : A -> R) (g : A -> R) l : dot (map f l) (map g l) = rsum (map (fun t => f t * g t) l).
Proof. induction l as [|t l IH]; simpl; [reflexivity|]. rewrite rsum_cons, IH. reflexivity. Qed.
Lemma dot_map_r {A} (g : A -> R) l : forall a, length a = length l -> dot a (map g l) = rsum (map (fun p => fst p * g (snd p)) (combine a l)).
Proof. induction l as [|t l IH]; intros [|x a] HL; try discriminate; simpl; [reflexivity|]. rewrite rsum_cons, IH by (simpl in HL; lia). reflexivity. Qed.
Lemma dot_repeat0 n : forall b, dot (repeat 0 n) b = 0.
Proof. induction n as [|n IH]; intros [|y b]; simpl; auto. rewrite IH. ring. Qed.
Lemma dot_set_at a : forall w k v, (k < length a)%nat -> length a = length w -> dot (set_at a k v) w = dot a w + (v - nth k a 0) * nth k w 0.
Proof.
  induction a as [|x a IH]; intros [|y w] [|k] v Hk HL; simpl in *; try lia; try ring. rewrite IH by lia. ring.
Qed.
Lemma set_at_len {A} (v : list A) : forall i x, length (set_at v i x) = length v.
Proof. induction v as [|y v IH]; intros [|i] x; simpl; auto. Qed.
Lemma add_at_length a k v : length (add_at a k v) = length a. Proof. apply set_at_len. Qed.
Lemma dot_add_at a w k v : (k < length a)%nat -> length a = length w -> dot (add_at a k v) w = dot a w + v * nth k w 0.
Proof. intros Hk HL. unfold add_at. rewrite dot_set_at by assumption. ring. Qed.

(** ** Bernstein polynomials *)
Lemma binom_gt : forall n j, (n < j)%nat -> binom n j = 0.
Proof. induction n as [|n IH]; intros [|j] Hj; try lia; [reflexivity|]. cbn [binom]. rewrite !IH by lia. ring. Qed.
Lemma binom_C : forall n k, (k <= n)%nat -> binom n k = C n k.
Proof.
  induction n as [|n IH]; intros [|k] Hk.
  - simpl. unfold C. simpl. field.
  - lia.
  - cbn [binom]. unfold C. rewrite Nat.sub_0_r. change (INR (fact 0)) with 1. field. apply INR_fact_neq_0.
  - cbn [binom]. destruct (Nat.eq_dec k n) as [-> | Hn].
    + rewrite IH by lia. replace (binom n (S n)) with 0.
      { unfold C. rewrite !Nat.sub_diag. change (INR (fact 0)) with 1. rewrite !Rmult_1_r. unfold Rdiv. rewrite !Rinv_r by apply INR_fact_neq_0. ring. }
      symmetry. apply binom_gt. lia.
    + rewrite !IH by lia. rewrite pascal by lia. reflexivity.
Qed.
Lemma binom_0 n : binom n 0 = 1. Proof. destruct n; reflexivity. Qed.
Lemma binom_pos n k : (k <= n)%nat -> 0 < binom n k.
Proof.
  intros H. rewrite binom_C by assumption. unfold C. apply Rdiv_lt_0_compat; [apply INR_fact_lt_0|]. apply Rmult_lt_0_compat; apply INR_fact_lt_0.
Qed.
(** B n i x: degree n, zero for i > n *)
Definition B (n i : nat) (x : R) : R := binom n i * x ^ i * (1 - x) ^ (n - i).
Lemma B_bernstein order i x : (i < order)%nat -> bernstein order i x = B (order - 1) i x.
Proof. intros H. unfold bernstein, B. rewrite binom_C by lia. reflexivity. Qed.
Lemma B_gt n i x : (n < i)%nat -> B n i x = 0. Proof. intros H. unfold B. rewrite binom_gt by assumption. ring. Qed.
Lemma B_00 x : B 0 0 x = 1. Proof. unfold B. simpl. ring. Qed.
Lemma B_rec_0 n x : B (S n) 0 x = (1 - x) * B n 0 x.
Proof. unfold B. rewrite !binom_0, !Nat.sub_0_r. simpl. ring. Qed.
Lemma B_rec n i x : B (S n) (S i) x = (1 - x) * B n (S i) x + x * B n i x.
Proof.
  unfold B. cbn [binom]. destruct (le_lt_dec (S i) n) as [H|H].
  - replace (S n - S i)%nat with (S (n - S i)) by lia. replace (n - i)%nat with (S (n - S i)) by lia. simpl. ring.
  - rewrite (binom_gt n (S i)) by lia. destruct (Nat.eq_dec i n) as [-> | Hn].
    + replace (S n - S n)%nat with (n - n)%nat by lia. simpl. ring.
    + rewrite (binom_gt n i) by lia. simpl. ring.
Qed.
Lemma B_sum n x : bigsum (S n) (fun i => B n i x) = 1.
Proof.
  induction n as [|n IH]; [unfold bigsum; simpl; rewrite B_00; unfold rsum; simpl; ring|].
  rewrite bigsum_S_l, B_rec_0. rewrite (bigsum_ext _ _ (fun i => (1 - x) * B n (S i) x + x * B n i x)) by (intros; apply B_rec).
  rewrite bigsum_plus, !bigsum_scal, IH, (bigsum_S n (fun i => B n (S i) x)), (B_gt n (S n)) by lia.
  rewrite bigsum_S_l in IH. transitivity ((1 - x) * (B n 0 x + bigsum n (fun i => B n (S i) x)) + x); [ring|]. rewrite IH. ring.
Qed.
Lemma B_nonneg n i x : 0 <= x <= 1 -> 0 <= B n i x.
Proof.
  intros Hx. unfold B. destruct (le_lt_dec i n) as [H|H]; [|rewrite binom_gt by assumption; lra].
  apply Rmult_le_pos; [apply Rmult_le_pos; [left; apply binom_pos; assumption|apply pow_le; lra]|apply pow_le; lra].
Qed.
(** raising: (n+1) B n k = (n+1-k) B (n+1) k + (k+1) B (n+1) (k+1) *)
Lemma binom_absorb n k : INR (S k) * binom (S n) (S k) = INR (S n) * binom n k.
Proof.
  revert k. induction n as [|n IH]; intros k.
  - destruct k as [|k]; [simpl; ring|]. cbn [binom]. ring.
  - destruct k as [|k].
    + cbn [binom]. generalize (IH O). cbn [binom]. rewrite !binom_0. rewrite !S_INR. simpl INR. intros H. nra.
    + change (binom (S (S n)) (S (S k))) with (binom (S n) (S k) + binom (S n) (S (S k))).
      change (binom (S n) (S k)) with (binom n k + binom n (S k)) at 2.
      rewrite Rmult_plus_distr_l. rewrite (IH (S k)). rewrite (S_INR (S k)), Rmult_plus_distr_r, (IH k). rewrite (S_INR (S n)).
      change (binom (S n) (S k)) with (binom n k + binom n (S k)). ring.
Qed.
Lemma binom_absorb2 n k : (k <= n)%nat -> INR (S n - k) * binom (S n) k = INR (S n) * binom n k.
Proof.
  intros H. destruct k as [|k].
  - rewrite !binom_0. rewrite Nat.sub_0_r. ring.
  - assert (E := binom_absorb n (S k)). assert (E' := binom_absorb n k).
    assert (P : binom (S n) (S k) = binom n k + binom n (S k)) by reflexivity.
    replace (S n - S k)%nat with (n - k)%nat by lia. rewrite minus_INR by lia. rewrite !S_INR in *.
    transitivity ((INR n + 1) * binom (S n) (S k) - (INR k + 1) * binom (S n) (S k)); [ring|]. rewrite E', P. ring.
Qed.
Lemma B_raise n k x : (k <= n)%nat -> INR (S n) * B n k x = INR (S n - k) * B (S n) k x + INR (S k) * B (S n) (S k) x.
Proof.
  intros H. unfold B.
  transitivity ((INR (S n) * binom n k) * x ^ k * (1 - x) ^ (n - k)); [ring|].
  transitivity ((INR (S n - k) * binom (S n) k) * x ^ k * (1 - x) ^ (S n - k) + (INR (S k) * binom (S n) (S k)) * x ^ (S k) * (1 - x) ^ (S n - S k)); [|ring].
  rewrite binom_absorb2, binom_absorb by assumption. replace (S n - k)%nat with (S (n - k)) by lia. replace (S n - S k)%nat with (n - k)%nat by lia. simpl. ring.
Qed.
(** derivatives *)
Ltac as_R := match goal with |- @eq _ ?a ?b => let H := fresh in assert (H : forall u v : R, u = v -> @eq R u v) by (intros; assumption); refine (H a b _); clear H end; change (AbsRing.sort R_AbsRing) with R in *.
Lemma B_der_0 n : forall x : R, is_derive (fun x : R => B (S n) 0 x) x (- INR (S n) * B n 0 x).
Proof.
  induction n as [|n IH]; intros x.
  - apply (is_derive_ext (fun x => 1 - x)). { intros t. rewrite B_rec_0, B_00. symmetry. apply Rmult_1_r. }
    auto_derive; auto. rewrite B_00. simpl. ring.
  - apply (is_derive_ext (fun x => (1 - x) * B (S n) 0 x)). { intros t. symmetry. apply B_rec_0. }
    evar_last. { apply (is_derive_mult (fun x => 1 - x) (fun x => B (S n) 0 x)); [|apply IH|intros; apply Rmult_comm].
      instantiate (1 := -1). auto_derive; auto. }
    rewrite (S_INR (S n)). generalize (INR (S n)). intros m. unfold plus, mult; simpl. rewrite (B_rec_0 n). as_R. ring.
Qed.
Lemma B_der n : forall (i : nat) (x : R), is_derive (fun x : R => B (S n) (S i) x) x (INR (S n) * (B n i x - B n (S i) x)).
Proof.
  induction n as [|n IH]; intros i x.
  - apply (is_derive_ext (fun x => (1 - x) * B 0 (S i) x + x * B 0 i x)). { intros t. symmetry. apply B_rec. }
    destruct i as [|i].
    + apply (is_derive_ext (fun x => x)). { intros t. rewrite B_00, B_gt by lia. as_R. ring. }
      evar_last; [apply is_derive_id|]. rewrite B_00, B_gt by lia. simpl. unfold one; simpl. as_R. ring.
    + apply (is_derive_ext (fun x => 0)). { intros t. rewrite !B_gt by lia. as_R. ring. }
      evar_last; [apply is_derive_const|]. rewrite !B_gt by lia. unfold zero; simpl. as_R. ring.
  - apply (is_derive_ext (fun x => (1 - x) * B (S n) (S i) x + x * B (S n) i x)). { intros t. symmetry. apply B_rec. }
    assert (D1 : is_derive (fun x => 1 - x) x (-1)) by (auto_derive; auto; ring).
    assert (D2 : is_derive (fun x : R => x) x 1) by (auto_derive; auto).
    rewrite (S_INR (S n)). destruct i as [|i].
    + evar_last. { apply @is_derive_plus; [apply (is_derive_mult (fun x => 1 - x) (fun x => B (S n) 1 x)); [exact D1|apply IH|intros; apply Rmult_comm]|].
        apply (is_derive_mult (fun x => x) (fun x => B (S n) 0 x)); [exact D2|apply B_der_0|intros; apply Rmult_comm]. }
      generalize (INR (S n)). intros m. unfold plus, mult; simpl; rewrite ?(B_rec n), ?(B_rec_0 n); as_R; ring.
    + evar_last. { apply @is_derive_plus; [apply (is_derive_mult (fun x => 1 - x) (fun x => B (S n) (S (S i)) x)); [exact D1|apply IH|intros; apply Rmult_comm]|].
        apply (is_derive_mult (fun x => x) (fun x => B (S n) (S i) x)); [exact D2|apply IH|intros; apply Rmult_comm]. }
      generalize (INR (S n)). intros m. unfold plus, mult; simpl; rewrite ?(B_rec n), ?(B_rec_0 n); as_R; ring.
Qed.
