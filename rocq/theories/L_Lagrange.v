(** Lagrange bases: uniqueness of interpolation, derivatives, tensor products. *)
From Coq Require Import Reals List Lia Lra.
From Coquelicot Require Import Coquelicot.
From Verif Require Import M_Lagrange M_Poly S_Poly S_Lagrange S_Affine L_Real L_Point L_BBox L_TensorNat L_Poly L_Poly2 L_Poly3 L_Poly4 L_Poly5 L_Poly6.
Import ListNotations.
Local Close Scope Z_scope.
Local Open Scope R_scope.

(** ** roots of polynomials *)
Fixpoint quot (a : list R) (c : R) : list R := match a with [] => [] | _ :: a' => match a' with [] => [] | _ => poly_value a' c :: quot a' c end end.
Lemma quot_ok a c x : poly_value a x = poly_value a c + (x - c) * poly_value (quot a c) x.
Proof.
  induction a as [|a0 a IH]; [simpl; ring|]. destruct a as [|a1 a]; [simpl; ring|].
  change (quot (a0 :: a1 :: a) c) with (poly_value (a1 :: a) c :: quot (a1 :: a) c).
  change (poly_value (a0 :: a1 :: a) x) with (a0 + x * poly_value (a1 :: a) x).
  change (poly_value (a0 :: a1 :: a) c) with (a0 + c * poly_value (a1 :: a) c).
  change (poly_value (poly_value (a1 :: a) c :: quot (a1 :: a) c) x) with (poly_value (a1 :: a) c + x * poly_value (quot (a1 :: a) c) x).
  rewrite IH. ring.
Qed.
Lemma quot_length a c : length (quot a c) = (length a - 1)%nat.
Proof. induction a as [|a0 a IH]; [reflexivity|]. destruct a as [|a1 a]; [reflexivity|]. change (quot (a0 :: a1 :: a) c) with (poly_value (a1 :: a) c :: quot (a1 :: a) c). cbn [length] in *. rewrite IH. lia. Qed.
Lemma roots_zero n : forall a (c : nat -> R), (length a <= n)%nat -> distinct_nodes n c -> (forall i, (i < n)%nat -> poly_value a (c i) = 0) -> forall x, poly_value a x = 0.
Proof.
  induction n as [|n IH]; intros a c HL Hd Hr x; [destruct a; [reflexivity|simpl in HL; lia]|].
  rewrite (quot_ok a (c n) x), Hr by lia. rewrite (IH (quot a (c n)) c); [ring|rewrite quot_length; lia|intros i j Hi Hj; apply Hd; lia|].
  intros i Hi. specialize (Hr i ltac:(lia)) as H1. rewrite (quot_ok a (c n)), Hr in H1 by lia. assert (c i <> c n) by (apply Hd; lia).
  apply (Rmult_eq_reg_l (c i - c n)); [lra|lra].
Qed.
(** polynomial functions *)
Definition is_poly (n : nat) (f : R -> R) : Prop := exists a, (length a <= n)%nat /\ forall x, f x = poly_value a x.
Fixpoint padd (a b : list R) : list R := match a, b with [], _ => b | _, [] => a | x :: a', y :: b' => (x + y) :: padd a' b' end.
Lemma padd_value a : forall b x, poly_value (padd a b) x = poly_value a x + poly_value b x.
Proof. induction a as [|a0 a IH]; intros [|b0 b] x; simpl; try ring. rewrite IH. ring. Qed.
Lemma padd_length a : forall b n, (length a <= n)%nat -> (length b <= n)%nat -> (length (padd a b) <= n)%nat.
Proof. induction a as [|a0 a IH]; intros [|b0 b] n Ha Hb; cbn [padd length] in *; auto. destruct n; [lia|]. specialize (IH b n ltac:(lia) ltac:(lia)). lia. Qed.
Lemma pscal_value k a x : poly_value (map (Rmult k) a) x = k * poly_value a x.
Proof. induction a as [|a0 a IH]; simpl; [ring|]. rewrite IH. ring. Qed.
Lemma is_poly_plus n f g : is_poly n f -> is_poly n g -> is_poly n (fun x => f x + g x).
Proof.
  intros (a & La & Ha) (b & Lb & Hb). exists (padd a b). split; [apply padd_length; assumption|]. intros x. rewrite padd_value, Ha, Hb. reflexivity.
Qed.
Lemma is_poly_scal n f k : is_poly n f -> is_poly n (fun x => k * f x).
Proof. intros (a & La & Ha). exists (map (Rmult k) a). split; [rewrite map_length; assumption|]. intros x. rewrite pscal_value, Ha. reflexivity. Qed.
Lemma is_poly_ext n f g : (forall x, f x = g x) -> is_poly n f -> is_poly n g.
Proof. intros E (a & La & Ha). exists a. split; [assumption|]. intros x. rewrite <- E. apply Ha. Qed.
Lemma is_poly_linear n f k c : is_poly n f -> is_poly (S n) (fun x => (x - c) * k * f x).
Proof.
  intros (a & La & Ha). exists (padd (0 :: map (Rmult k) a) (map (Rmult (- (c * k))) a)). split.
  - apply padd_length; cbn [length]; rewrite map_length; lia.
  - intros x. rewrite padd_value. cbn [poly_value]. rewrite !pscal_value, Ha. ring.
Qed.
Lemma is_poly_rsum {A} n (f : A -> R -> R) l : (forall a, In a l -> is_poly n (f a)) -> is_poly n (fun x => rsum (map (fun a => f a x) l)).
Proof.
  induction l as [|a l IH]; intros H; [exists []; split; [simpl; lia|intros; reflexivity]|].
  apply (is_poly_ext n (fun x => f a x + rsum (map (fun a => f a x) l))); [intros; reflexivity|]. apply is_poly_plus; [apply H; left; reflexivity|apply IH; intros; apply H; right; assumption].
Qed.
Lemma is_poly_zero n f (c : nat -> R) : is_poly n f -> distinct_nodes n c -> (forall i, (i < n)%nat -> f (c i) = 0) -> forall x, f x = 0.
Proof. intros (a & La & Ha) Hd Hr x. rewrite Ha. apply (roots_zero n a c La Hd). intros i Hi. rewrite <- Ha. apply Hr. assumption. Qed.

(** ** the one-dimensional basis *)
Definition Lg (c : nat -> R) (n i : nat) (x : R) : R := prodl (map (fun j => if (i =? j)%nat then 1 else (x - c j) / (c i - c j)) (seq 0 n)).
Definition dLg (c : nat -> R) (n i : nat) (x : R) : R :=
  rsum (map (fun d => prodl (map (fun j => if (j =? d)%nat then (if (i =? j)%nat then 0 else 1 / (c i - c j)) else (if (i =? j)%nat then 1 else (x - c j) / (c i - c j))) (seq 0 n))) (seq 0 n)).
Lemma is_derive_const_R (k x : R) : is_derive (fun _ : R => k) x 0.
Proof. apply (is_derive_const (K := R_AbsRing) (V := R_NormedModule) k x). Qed.
Lemma Lg_derive c n i (x : R) : is_derive (fun x : R => Lg c n i x) x (dLg c n i x).
Proof.
  unfold Lg, dLg. apply (is_derive_prodl (fun j x => if (i =? j)%nat then 1 else (x - c j) / (c i - c j)) (fun j => if (i =? j)%nat then 0 else 1 / (c i - c j)) (seq 0 n) x); [apply seq_NoDup|].
  intros j _. destruct (i =? j)%nat; [apply is_derive_const_R|].
  apply (is_derive_ext (fun t : R => / (c i - c j) * (t - c j))); [intros; unfold Rdiv; apply Rmult_comm|].
  replace (1 / (c i - c j)) with (/ (c i - c j) * 1) by (unfold Rdiv; ring).
  apply (is_derive_scal (fun t : R => t - c j)). auto_derive; [trivial|ring].
Qed.
Lemma fold_skip {A} (b : A -> bool) (g : A -> R) l : forall v, fold_left (fun p j => if b j then p else p * g j) l v = v * prodl (map (fun j => if b j then 1 else g j) l).
Proof.
  induction l as [|a l IH]; intros v; [unfold prodl; simpl; ring|]. cbn [fold_left map]. rewrite IH, prodl_cons. destruct (b a); ring.
Qed.
Lemma fold_skip_sum {A} (b : A -> bool) (g : A -> R) l : forall v, fold_left (fun p j => if b j then p else p + g j) l v = v + rsum (map (fun j => if b j then 0 else g j) l).
Proof.
  induction l as [|a l IH]; intros v; [unfold rsum; simpl; ring|]. cbn [fold_left map]. rewrite IH, rsum_cons. destruct (b a); ring.
Qed.
Definition nodes_of (cheb : nat -> nat -> R) (flag : bool) (n : nat) : nat -> R := get_coord cheb n flag.
Definition lag_vec (c : nat -> R) (n : nat) (x : R) : list R := map (fun i => Lg c n i x) (seq 0 n).
Definition dlag_vec (c : nat -> R) (n : nat) (x : R) : list R := map (fun i => dLg c n i x) (seq 0 n).
Lemma basis_1D_eq cheb x n flag : (1 < n)%nat -> lagrange_basis_1D cheb x n flag = Ret (lag_vec (get_coord cheb n flag) n x).
Proof.
  intros Hn. unfold lagrange_basis_1D. rewrite assert_true by (apply Nat.ltb_lt; assumption). f_equal. apply map_ext. intros i.
  rewrite (fold_skip (fun j => i =? j)%nat (fun j => (x - get_coord cheb n flag j) / (get_coord cheb n flag i - get_coord cheb n flag j))). unfold Lg. ring.
Qed.
Lemma prodl_zero {A} (f : A -> R) l a : In a l -> f a = 0 -> prodl (map f l) = 0.
Proof. induction l as [|b l IH]; intros Hin H; [destruct Hin|]. destruct Hin as [Hb|Hb]; cbn [map]; rewrite prodl_cons; [subst; rewrite H; ring|rewrite IH by assumption; ring]. Qed.
Lemma prodl_one_change (h h' : nat -> R) d l : NoDup l -> In d l -> h d = 1 -> prodl (map (fun j => if (j =? d)%nat then h' j else h j) l) = h' d * prodl (map h l).
Proof.
  intros Hnd Hin H. rewrite (prodl_ext _ (fun j => if (j =? d)%nat then h' j * h j else h j)).
  - rewrite (prodl_pull h h h' d l Hnd Hin). f_equal. apply prodl_ext. intros j _. destruct (j =? d)%nat; reflexivity.
  - intros j _. destruct (Nat.eqb_spec j d); [subst; rewrite H; ring|reflexivity].
Qed.
Lemma der_1D_eq cheb x n flag : (1 < n)%nat -> lagrange_der_1D cheb x n flag = Ret (dlag_vec (get_coord cheb n flag) n x).
Proof.
  intros Hn. unfold lagrange_der_1D. rewrite assert_true by (apply Nat.ltb_lt; assumption). f_equal. apply map_ext. intros i. set (c := get_coord cheb n flag).
  rewrite (fold_skip_sum (fun j => i =? j)%nat). rewrite Rplus_0_l. unfold dLg. apply rsum_ext. intros d Hd.
  destruct (Nat.eqb_spec i d) as [-> | Hne].
  - symmetry. apply (prodl_zero _ _ d Hd). rewrite !Nat.eqb_refl. reflexivity.
  - rewrite (fold_skip (fun k => (k =? i) || (k =? d))%nat).
    set (h := fun k => if ((k =? i) || (k =? d))%nat then 1 else (x - c k) / (c i - c k)).
    transitivity ((fun j => 1 / (c i - c j)) d * prodl (map h (seq 0 n))); [reflexivity|].
    rewrite <- (prodl_one_change h (fun j => 1 / (c i - c j)) d) by (apply seq_NoDup || assumption || (unfold h; rewrite Nat.eqb_refl, Bool.orb_true_r; reflexivity)).
    apply prodl_ext. intros j _. destruct (Nat.eqb_spec j d) as [-> | Hj]; [destruct (Nat.eqb_spec i d); [congruence|reflexivity]|].
    unfold h. rewrite (Nat.eqb_sym j i). destruct (Nat.eqb_spec j d); [congruence|]. rewrite Bool.orb_false_r. reflexivity.
Qed.
Lemma lag_vec_length c n x : length (lag_vec c n x) = n. Proof. unfold lag_vec. rewrite map_length, seq_length. reflexivity. Qed.
Lemma lag_vec_nth c n x i : (i < n)%nat -> nth i (lag_vec c n x) 0 = Lg c n i x.
Proof. intros. unfold lag_vec. apply map_seq_nth'. assumption. Qed.
Lemma dlag_vec_length c n x : length (dlag_vec c n x) = n. Proof. unfold dlag_vec. rewrite map_length, seq_length. reflexivity. Qed.
Lemma dlag_vec_nth c n x i : (i < n)%nat -> nth i (dlag_vec c n x) 0 = dLg c n i x.
Proof. intros. unfold dlag_vec. apply map_seq_nth'. assumption. Qed.
Lemma Lg_cardinal c n i j : distinct_nodes n c -> (i < n)%nat -> (j < n)%nat -> Lg c n i (c j) = if (i =? j)%nat then 1 else 0.
Proof.
  intros Hd Hi Hj. unfold Lg. destruct (Nat.eqb_spec i j) as [-> | Hne].
  - apply prodl_ones. intros k Hk. apply in_seq in Hk. destruct (Nat.eqb_spec j k); [reflexivity|]. assert (c j <> c k) by (apply Hd; lia). field. lra.
  - apply (prodl_zero _ _ j); [apply in_seq; lia|]. destruct (Nat.eqb_spec i j); [congruence|]. unfold Rdiv. ring.
Qed.
Lemma prodl_poly (i : nat) (c : nat -> R) l : NoDup l ->
  is_poly (S (length l - if existsb (Nat.eqb i) l then 1 else 0)) (fun x => prodl (map (fun j => if (i =? j)%nat then 1 else (x - c j) / (c i - c j)) l)).
Proof.
  induction l as [|a l IH]; intros Hnd.
  - exists [1]. split; [simpl; lia|]. intros x. unfold prodl. simpl. ring.
  - inversion Hnd; subst. specialize (IH H2). cbn [existsb length map]. destruct (Nat.eqb_spec i a) as [-> | Hne].
    + simpl orb. assert (E : existsb (Nat.eqb a) l = false). { apply Bool.not_true_is_false. intros E. apply existsb_exists in E. destruct E as (y & Hy & E). apply Nat.eqb_eq in E. subst. contradiction. }
      rewrite E in IH. replace (S (length l) - 1)%nat with (length l - 0)%nat by lia. eapply is_poly_ext; [|exact IH]. intros x. cbn beta. rewrite prodl_cons. ring.
    + simpl orb. eapply is_poly_ext; [|eapply (is_poly_linear _ _ (/ (c i - c a)) (c a)) in IH]. 
      * intros x. cbn beta. rewrite prodl_cons. reflexivity.
      * destruct IH as (p & Lp & Hp). exists p. split; [|exact Hp]. destruct (existsb (Nat.eqb i) l) eqn:E; [|lia].
        destruct l; [discriminate|]. cbn [length] in *. lia.
Qed.
Lemma Lg_poly c n i : (i < n)%nat -> is_poly n (Lg c n i).
Proof.
  intros Hi. assert (H := prodl_poly i c (seq 0 n) (seq_NoDup n 0)). rewrite seq_length in H.
  assert (E : existsb (Nat.eqb i) (seq 0 n) = true). { apply existsb_exists. exists i. split; [apply in_seq; lia|apply Nat.eqb_refl]. }
  rewrite E in H. replace (S (n - 1)) with n in H by lia. exact H.
Qed.
Lemma Lg_reproduces c n (q : R -> R) x : distinct_nodes n c -> is_poly n q -> bigsum n (fun i => q (c i) * Lg c n i x) = q x.
Proof.
  intros Hd Hq.
  assert (Z : (fun x => bigsum n (fun i => q (c i) * Lg c n i x) + (-1) * q x) x = 0).
  { apply (is_poly_zero n (fun x => bigsum n (fun i => q (c i) * Lg c n i x) + (-1) * q x) c); [|assumption|].
    - apply (is_poly_plus n (fun x => bigsum n (fun i => q (c i) * Lg c n i x)) (fun x => (-1) * q x)); [|apply is_poly_scal; assumption]. unfold bigsum. apply (is_poly_rsum n (fun i x => q (c i) * Lg c n i x)). intros i Hi. apply in_seq in Hi.
      apply is_poly_scal. apply Lg_poly. lia.
    - intros j Hj. rewrite (bigsum_single n _ j Hj).
      + rewrite Lg_cardinal, Nat.eqb_refl by assumption. ring.
      + intros i Hi Hne. rewrite Lg_cardinal by assumption. destruct (Nat.eqb_spec i j); [congruence|ring]. }
  cbn beta in Z. lra.
Qed.
Lemma is_poly_pow n k : (k < n)%nat -> is_poly n (fun x => x ^ k).
Proof.
  intros Hk. exists (repeat 0 k ++ [1]). split; [rewrite app_length, repeat_length; simpl; lia|]. intros x. clear Hk.
  induction k as [|k IH]; simpl; [ring|]. rewrite <- IH. ring.
Qed.
Lemma equi_distinct n : (1 < n)%nat -> distinct_nodes n (equispaced n).
Proof.
  intros Hn i j Hi Hj Hne E. unfold equispaced in E. assert (0 < INR (n - 1)) by (apply lt_0_INR; lia). apply Hne, INR_eq.
  apply (Rmult_eq_reg_r (/ INR (n - 1))); [exact E|]. apply Rinv_neq_0_compat. lra.
Qed.
Lemma distinct_ext n c c' : (forall i, (i < n)%nat -> c i = c' i) -> distinct_nodes n c -> distinct_nodes n c'.
Proof. intros E H i j Hi Hj. rewrite <- !E by assumption. apply H; assumption. Qed.
Lemma interp_lag c n : distinct_nodes n c -> interpolates n c (lag_vec c n).
Proof.
  intros Hd x. split; [apply lag_vec_length|]. intros a La. rewrite <- (Lg_reproduces c n (poly_value a) x Hd) by (exists a; split; [assumption|reflexivity]).
  apply rsum_ext. intros i Hi. apply in_seq in Hi. rewrite lag_vec_nth by lia. reflexivity.
Qed.
Lemma cardinal_lag c n : distinct_nodes n c -> cardinal n c (lag_vec c n).
Proof. intros Hd i j Hi Hj. rewrite lag_vec_nth by assumption. apply Lg_cardinal; assumption. Qed.
Lemma cardinal_unique c c' n : (1 < n)%nat -> distinct_nodes n c -> cardinal n c' (lag_vec c n) <-> (forall i, (i < n)%nat -> c' i = c i).
Proof.
  intros Hn Hd. split.
  - intros H j Hj. assert (R1 := Lg_reproduces c n (fun x => x) (c' j) Hd).
    rewrite <- R1 by (exists [0; 1]; split; [simpl; lia|intros; simpl; ring]).
    rewrite (bigsum_single n _ j Hj).
    + rewrite <- (lag_vec_nth c n) by assumption. rewrite H by assumption. rewrite Nat.eqb_refl. ring.
    + intros i Hi Hne. rewrite <- (lag_vec_nth c n) by assumption. rewrite H by assumption. destruct (Nat.eqb_spec i j); [congruence|ring].
  - intros E i j Hi Hj. rewrite E by assumption. apply cardinal_lag; assumption.
Qed.

(** ** tensor products *)
Lemma has_gradient_prod (g : nat -> R -> R) (g' : nat -> R) k x : length x = k -> (forall d, (d < k)%nat -> is_derive (g d) (nth d x 0) (g' d)) ->
  has_gradient k (fun y => prodl (map (fun d => g d (nth d y 0)) (seq 0 k))) x
    (map (fun d => prodl (map (fun j => if (j =? d)%nat then g' j else g j (nth j x 0)) (seq 0 k))) (seq 0 k)).
Proof.
  intros Hx Hg. split; [rewrite map_length, seq_length; reflexivity|]. intros cv dc Hc Hdc.
  apply (is_derive_ext (fun s : R => prodl (map (fun d => g d (cv d s)) (seq 0 k)))).
  { intros s. apply prodl_ext. intros d Hd. apply in_seq in Hd. f_equal. symmetry. apply (map_seq_nth' (fun i => cv i s)). lia. }
  replace (fold_right Rplus 0 _) with (rsum (map (fun d => prodl (map (fun j => if (j =? d)%nat then dc j * g' j else g j (cv j 0)) (seq 0 k))) (seq 0 k))).
  - apply (is_derive_prodl (fun d s => g d (cv d s)) (fun d => dc d * g' d)); [apply seq_NoDup|]. intros d Hd. apply in_seq in Hd.
    apply (is_derive_comp (g d) (cv d) 0 _ (dc d)); [|apply Hdc; lia]. rewrite Hc by lia. apply Hg. lia.
  - change (fold_right Rplus 0) with rsum. apply rsum_ext. intros d Hd. assert (Hd' := Hd). apply in_seq in Hd'. rewrite map_seq_nth' by lia.
    rewrite (prodl_pull (fun j => g j (cv j 0)) g' dc) by (apply seq_NoDup || assumption). rewrite Rmult_comm. f_equal. apply prodl_ext. intros j Hj. apply in_seq in Hj.
    destruct (j =? d)%nat; [reflexivity|]. rewrite Hc by lia. reflexivity.
Qed.
Section Tensor.
Context (cheb : nat -> nat -> R) (flag : bool) (o : list nat).
Definition cnode (d i : nat) : R := get_coord cheb (nth d o O) flag i.
Definition Fx (x : list R) : list R := map (fun t => termp (fun d i => Lg (cnode d) (nth d o O) i (nth d x 0)) (length o) t) (tp_all o).
Definition Gx (x : list R) : list (list R) :=
  map (fun dd => map (fun t => termp (fun d i => if (d =? dd)%nat then dLg (cnode d) (nth d o O) i (nth d x 0) else Lg (cnode d) (nth d o O) i (nth d x 0)) (length o) t) (tp_all o))
    (seq 0 (length o)).
Lemma tensor_values_eq dirs (F : nat -> nat -> R) : (forall d i, (d < length o)%nat -> (i < nth d o O)%nat -> nth i (nth d dirs []) 0 = F d i) ->
  tensor_values o dirs = map (termp F (length o)) (tp_all o).
Proof.
  intros H. apply map_ext_in. intros t Ht. apply tp_all_In in Ht. destruct Ht as [Lt It]. rewrite fold_left_prod, Rmult_1_l. apply prodl_ext. intros d Hd. apply in_seq in Hd.
  apply H; [lia|]. apply It. lia.
Qed.
Context (Ho : Forall (fun n => (1 < n)%nat) o).
Lemma o_gt d : (d < length o)%nat -> (1 < nth d o O)%nat.
Proof. intros Hd. rewrite Forall_forall in Ho. apply Ho, nth_In. assumption. Qed.
Lemma basis_eq x : length x = length o -> lagrange_basis cheb x o flag = Ret (Fx x).
Proof.
  intros Hx. unfold lagrange_basis. rewrite (map2M_ok _ (fun a n => lag_vec (get_coord cheb n flag) n a) 0 O) by (try assumption; intros d Hd; apply basis_1D_eq, o_gt; lia).
  cbn [bind]. f_equal. apply tensor_values_eq. intros d i Hd Hi. rewrite (L_Real.map2_nth _ 0 O []) by lia. apply lag_vec_nth. assumption.
Qed.
Lemma derivative_eq x : length x = length o -> lagrange_derivative cheb x o flag = Ret (Gx x).
Proof.
  intros Hx. unfold lagrange_derivative.
  rewrite (map2M_ok _ (fun a n => lag_vec (get_coord cheb n flag) n a) 0 O) by (try assumption; intros d Hd; apply basis_1D_eq, o_gt; lia). cbn [bind].
  rewrite (map2M_ok _ (fun a n => dlag_vec (get_coord cheb n flag) n a) 0 O) by (try assumption; intros d Hd; apply der_1D_eq, o_gt; lia). cbn [bind].
  f_equal. apply map_ext_in. intros dd _. apply tensor_values_eq. intros d i Hd Hi.
  rewrite (map_seq_nth_gen _ 0 (length o) d []) by assumption. rewrite Nat.add_0_l. destruct (d =? dd)%nat; rewrite (L_Real.map2_nth _ 0 O []) by lia; [apply dlag_vec_nth|apply lag_vec_nth]; assumption.
Qed.
Lemma Fx_length x : length (Fx x) = tp_size o. Proof. unfold Fx. rewrite map_length. apply tp_all_length. Qed.
Lemma Gx_length x : length (Gx x) = length o /\ forall d, (d < length o)%nat -> length (nth d (Gx x) []) = tp_size o.
Proof.
  split; [unfold Gx; rewrite map_length, seq_length; reflexivity|]. intros d Hd. unfold Gx. rewrite (map_seq_nth_gen _ 0 (length o) d []) by assumption. rewrite map_length. apply tp_all_length.
Qed.
Lemma Fx_nth x t : In t (tp_all o) -> nth (tp_flat o t) (Fx x) 0 = termp (fun d i => Lg (cnode d) (nth d o O) i (nth d x 0)) (length o) t.
Proof. intros Ht. unfold Fx. apply (coef_map o (fun t => termp (fun d i => Lg (cnode d) (nth d o O) i (nth d x 0)) (length o) t)). assumption. Qed.
Lemma Gx_nth x t dd : In t (tp_all o) -> (dd < length o)%nat -> nth (tp_flat o t) (nth dd (Gx x) []) 0 =
  prodl (map (fun d => if (d =? dd)%nat then dLg (cnode d) (nth d o O) (nth d t O) (nth d x 0) else Lg (cnode d) (nth d o O) (nth d t O) (nth d x 0)) (seq 0 (length o))).
Proof.
  intros Ht Hd. unfold Gx. rewrite (map_seq_nth_gen _ 0 (length o) dd []) by assumption. rewrite Nat.add_0_l.
  rewrite (coef_map o (fun t => termp (fun d i => if (d =? dd)%nat then dLg (cnode d) (nth d o O) i (nth d x 0) else Lg (cnode d) (nth d o O) i (nth d x 0)) (length o) t)) by assumption. reflexivity.
Qed.
Lemma tensor_gradient x t : length x = length o -> In t (tp_all o) ->
  has_gradient (length o) (fun y => nth (tp_flat o t) (Fx y) 0) x (map (fun d => nth (tp_flat o t) (nth d (Gx x) []) 0) (seq 0 (length o))).
Proof.
  intros Hx Ht. rewrite (map_ext_in _ (fun dd => prodl (map (fun d => if (d =? dd)%nat then dLg (cnode d) (nth d o O) (nth d t O) (nth d x 0) else Lg (cnode d) (nth d o O) (nth d t O) (nth d x 0)) (seq 0 (length o))))).
  - eapply has_gradient_ext; [intros q _; symmetry; apply Fx_nth; assumption|]. 
    apply (has_gradient_prod (fun d a => Lg (cnode d) (nth d o O) (nth d t O) a) (fun d => dLg (cnode d) (nth d o O) (nth d t O) (nth d x 0))); [assumption|]. intros d _. apply Lg_derive.
  - intros dd Hd. apply in_seq in Hd. apply Gx_nth; [assumption|lia].
Qed.
Context (Hc : forall d, (d < length o)%nat -> distinct_nodes (nth d o O) (cnode d)).
Definition node (t : list nat) : list R := map (fun d => cnode d (nth d t O)) (seq 0 (length o)).
Lemma tensor_cardinal t u : In t (tp_all o) -> In u (tp_all o) -> nth (tp_flat o t) (Fx (node u)) 0 = if list_eq_dec Nat.eq_dec t u then 1 else 0.
Proof.
  intros Ht Hu. rewrite Fx_nth by assumption. unfold termp. assert (Ht' := Ht). assert (Hu' := Hu). apply tp_all_In in Ht', Hu'. destruct Ht' as [Lt It], Hu' as [Lu Iu].
  destruct (list_eq_dec Nat.eq_dec t u) as [<- | Hne].
  - apply prodl_ones. intros d Hd. apply in_seq in Hd. unfold node. rewrite map_seq_nth' by lia. rewrite Lg_cardinal, Nat.eqb_refl by (try apply Hc; try apply It; lia). reflexivity.
  - assert (E : exists d, (d < length o)%nat /\ nth d t O <> nth d u O).
    { destruct (Exists_dec (fun d => nth d t O <> nth d u O) (seq 0 (length o))) as [E|E].
      - intros d. destruct (Nat.eq_dec (nth d t O) (nth d u O)); [right; auto|left; assumption].
      - apply Exists_exists in E. destruct E as (d & Hd & E). apply in_seq in Hd. exists d. split; [lia|assumption].
      - exfalso. apply Hne. apply (list_eq_nth O); [congruence|]. intros d Hd. destruct (Nat.eq_dec (nth d t O) (nth d u O)) as [e|e]; [assumption|].
        exfalso. apply E, Exists_exists. exists d. split; [apply in_seq; lia|assumption]. }
    destruct E as (d & Hd & E). apply (prodl_zero _ _ d); [apply in_seq; lia|]. unfold node. rewrite map_seq_nth' by lia. rewrite Lg_cardinal by (try apply Hc; try apply It; try apply Iu; lia).
    destruct (Nat.eqb_spec (nth d t O) (nth d u O)); [congruence|reflexivity].
Qed.
Lemma tensor_reproduces p x : valid_poly p -> p_order p = o -> length x = length o ->
  rsum (map (fun t => expansion monomial p (node t) * nth (tp_flat o t) (Fx x) 0) (tp_all o)) = expansion monomial p x.
Proof.
  intros Hp Eo Hx. unfold expansion. rewrite Eo. change (fold_right Rplus 0) with rsum.
  transitivity (rsum (map (fun t => rsum (map (fun s => nth (tp_flat o s) (p_coefs p) 0 * termp (fun d i => cnode d i ^ nth d s O * Lg (cnode d) (nth d o O) i (nth d x 0)) (length o) t) (tp_all o))) (tp_all o))).
  { apply rsum_ext. intros t Ht. rewrite Fx_nth by assumption. rewrite <- rsum_scal_r. apply rsum_ext. intros s Hs. rewrite Rmult_assoc. f_equal.
    rewrite <- termp_mult. f_equal. unfold basis_term, termp, monomial. apply prodl_ext. intros d Hd. apply in_seq in Hd. unfold node. rewrite map_seq_nth' by lia. reflexivity. }
  rewrite rsum_swap. apply rsum_ext. intros s Hs. rewrite rsum_scal. f_equal. rewrite rsum_all. unfold basis_term, monomial. apply prodl_ext. intros d Hd. apply in_seq in Hd.
  apply tp_all_In in Hs. destruct Hs as [Ls Is]. apply (Lg_reproduces (cnode d) (nth d o O) (fun x => x ^ nth d s O)); [apply Hc; lia|apply is_poly_pow, Is; lia].
Qed.
End Tensor.
