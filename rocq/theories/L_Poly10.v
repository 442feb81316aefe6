(** Final lemmas on polynomials. *)
From Coq Require Import Reals List Lia Lra Binomial ZArith.
From Coquelicot Require Import Coquelicot.
From Verif Require Import M_Poly S_Poly S_Affine L_Real L_Point L_BBox L_TensorNat L_Poly L_Poly2 L_Poly3 L_Poly4 L_Poly5 L_Poly6 L_Poly7 L_Poly8 L_Poly9.
Import ListNotations.
Local Close Scope Z_scope.
Local Open Scope R_scope.

Lemma DB_derive_n p i e : forall x : R, is_derive_n (fun y => DB 0 p i y) e x (DB e p i x).
Proof.
  induction e as [|e IH]; intros x; [reflexivity|]. cbn [is_derive_n].
  apply (is_derive_ext (fun y => DB e p i y)); [|apply DB_der]. intros t. symmetry. apply is_derive_n_unique. apply IH.
Qed.
Lemma bernstein_basis_ok x order der : (0 < order)%nat -> exists v, evaluate_Bernstein x order der = Ret v /\ length v = order /\
  (forall i, (i < order)%nat -> is_derive_n (fun y => bernstein order i y) der x (nth i v 0)) /\
  (der = 0%nat -> (forall i, (i < order)%nat -> nth i v 0 = bernstein order i x /\ (0 <= x <= 1 -> 0 <= nth i v 0)) /\ fold_right Rplus 0 v = 1).
Proof.
  intros Ho. exists (bernstein_ders x order der). split; [unfold evaluate_Bernstein, assert_; destruct (Nat.ltb_spec 0 order); [reflexivity|lia]|].
  rewrite bernstein_ders_DB. split; [rewrite map_length, seq_length; reflexivity|]. split.
  - intros i Hi. rewrite map_seq_nth' by assumption. apply (is_derive_n_ext (fun y => DB 0 (order - 1) i y)); [intros t; symmetry; apply B_bernstein; assumption|apply DB_derive_n].
  - intros ->. split.
    + intros i Hi. rewrite map_seq_nth' by assumption. cbn [DB]. split; [symmetry; apply B_bernstein; assumption|]. apply B_nonneg.
    + cbn [DB]. destruct order as [|n]; [lia|]. replace (S n - 1)%nat with n by lia. apply (B_sum n x).
Qed.
Lemma arithmetic_ok p q : valid_poly p -> valid_poly q -> length (p_order q) = length (p_order p) -> (1 <= length (p_order p) <= 3)%nat ->
  (exists r, bezier_product p q = Ret r /\ valid_poly r /\ length (p_order r) = length (p_order p) /\ forall x, length x = length (p_order p) -> bezier_eval r x = bezier_eval p x * bezier_eval q x) /\
  (exists r, bezier_add p q = Ret r /\ valid_poly r /\ length (p_order r) = length (p_order p) /\ forall x, length x = length (p_order p) -> bezier_eval r x = bezier_eval p x + bezier_eval q x) /\
  (exists r, bezier_sub p q = Ret r /\ valid_poly r /\ length (p_order r) = length (p_order p) /\ forall x, length x = length (p_order p) -> bezier_eval r x = bezier_eval p x - bezier_eval q x) /\
  (valid_poly (bezier_negate p) /\ forall x, length x = length (p_order p) -> bezier_eval (bezier_negate p) x = - bezier_eval p x) /\
  (forall new, length new = length (p_order p) -> (forall d, (d < length new)%nat -> (nth d (p_order p) O <= nth d new O)%nat) ->
     exists r, raise_order p new = Ret r /\ valid_poly r /\ p_order r = new /\ forall x, length x = length (p_order p) -> bezier_eval r x = bezier_eval p x).
Proof.
  intros Hp Hq HL Hd. split; [|split; [|split; [|split]]].
  - destruct (bezier_product_ok p q Hp Hq HL Hd) as [r (E & V & O' & Ev)]. exists r. split; [exact E|split; [exact V|split; [rewrite O', product_order_length; congruence|exact Ev]]].
  - destruct (bezier_combine_ok Rplus p q) as [r (E & V & O' & Ev)]; try assumption; [exists 1; intros; ring|]. exists r. split; [exact E|split; [exact V|split; [rewrite O', map2_length; congruence|exact Ev]]].
  - destruct (bezier_combine_ok Rminus p q) as [r (E & V & O' & Ev)]; try assumption; [exists (-1); intros; ring|]. exists r. split; [exact E|split; [exact V|split; [rewrite O', map2_length; congruence|exact Ev]]].
  - split; [apply (bezier_affine p _ (-1) 0 (repeat 0 (length (p_order p)))); [reflexivity|assumption|apply repeat_length]|].
    intros x Hx. unfold bezier_negate, coefs_linear_transform. destruct (bezier_affine p (fun c => -1 * c + 0) (-1) 0 x ltac:(reflexivity) Hp Hx) as [_ ->]. ring.
  - intros new Ln Hle. apply raise_order_ok; assumption.
Qed.
Lemma mono_grad_wrong : ~ forall p x, valid_poly p -> length x = length (p_order p) -> has_gradient (length (p_order p)) (mono_eval p) x (mono_grad p x).
Proof.
  intros H. set (p := mk_poly [2; 1]%nat [0; 1]). assert (V : valid_poly p) by (split; [discriminate|split; [repeat constructor|reflexivity]]).
  assert (G := H p [0; 1] V eq_refl). assert (D := gradient_partial 2 (mono_eval p) [0; 1] (mono_grad p [0; 1]) 0 G eq_refl ltac:(lia)).
  cbn [set_at nth] in D. assert (E : is_derive (fun s : R => mono_eval p [s; 1]) 0 1).
  { apply (is_derive_ext (fun s : R => s)); [intros s; unfold mono_eval, p; cbn; unfold mul_add; as_R; ring|apply (is_derive_id (K := R_AbsRing) 0)]. }
  apply is_derive_unique in D, E. rewrite E in D. unfold mono_grad, p in D. cbn in D. unfold mul_add in D. cbn in D. lra.
Qed.
Lemma derivative_ok p dir : valid_poly p -> (dir < length (p_order p))%nat ->
  ((2 <= nth dir (p_order p) O)%nat -> exists q, create_derivative p dir = Ret q /\ valid_poly q /\
     forall x, length x = length (p_order p) -> is_derive (fun s : R => mono_eval p (set_at x dir s)) (nth dir x 0) (mono_eval q x)) /\
  (nth dir (p_order p) O = 1%nat -> create_derivative p dir = Ret p).
Proof.
  intros Hp Hd. split; [intros H2; apply derivative_is_partial; assumption|]. intros H1. unfold create_derivative, assert_. destruct (Nat.ltb_spec dir (length (p_order p))); [|lia]. rewrite H1. cbn [Nat.sub Nat.eqb].
  destruct Hp as (Hne & Hpos & Hc). destruct p as [o c]. cbn [p_order p_coefs] in *. apply make_poly_ok; assumption.
Qed.
Lemma mono_facet_wrong : ~ forall p f y q, valid_poly p -> (2 <= length (p_order p))%nat -> (0 <= f < Z.of_nat (length (p_order p)) * 2)%Z ->
  length y = (length (p_order p) - 1)%nat -> extract_facet p f = Ret q -> mono_eval q y = mono_eval p (insert_at (Z.to_nat (f / 2)) (IZR (f mod 2)) y).
Proof.
  intros H. assert (E := H (mk_poly [2; 1]%nat [1; 1]) 1%Z [0] (mk_poly [1]%nat [1])).
  assert (V : valid_poly (mk_poly [2; 1]%nat [1; 1])) by (split; [discriminate|split; [repeat constructor|reflexivity]]).
  specialize (E V ltac:(cbn; lia) ltac:(cbn; lia) eq_refl eq_refl). unfold mono_eval in E. cbn in E. unfold mul_add in E. lra.
Qed.
Lemma image_ok p : valid_poly p ->
  (forall scale shift, valid_poly (coefs_linear_transform p scale shift) /\
     forall x, length x = length (p_order p) -> bezier_eval (coefs_linear_transform p scale shift) x = scale * bezier_eval p x + shift) /\
  (forall old_lo old_len new_lo new_len, valid_poly (transform_image p old_lo old_len new_lo new_len) /\
     forall x, length x = length (p_order p) ->
       bezier_eval (transform_image p old_lo old_len new_lo new_len) x = (bezier_eval p x - old_lo) * new_len / old_len + new_lo) /\
  (forall order v c, make_const order v = Ret c -> valid_poly c /\ p_order c = order /\ forall x, length x = length order -> bezier_eval c x = v).
Proof.
  intros Hp. split; [|split].
  - intros s b. split; [apply (bezier_affine p (fun c => s * c + b) s b (repeat 0 (length (p_order p)))); [reflexivity|assumption|apply repeat_length]|].
    intros x Hx. apply (bezier_affine p (fun c => s * c + b) s b x); [reflexivity|assumption|assumption].
  - intros a la b lb. assert (Hh : forall c, (c - a) * lb / la + b = (lb / la) * c + (b - a * lb / la)) by (intros; unfold Rdiv; ring).
    split; [apply (bezier_affine p (fun c => (c - a) * lb / la + b) (lb / la) (b - a * lb / la) (repeat 0 (length (p_order p)))); [exact Hh|assumption|apply repeat_length]|].
    intros x Hx. unfold transform_image. destruct (bezier_affine p (fun c => (c - a) * lb / la + b) (lb / la) (b - a * lb / la) x Hh Hp Hx) as [_ ->]. unfold Rdiv. ring.
  - intros o v c E. assert (E' := E). unfold make_const in E. apply make_poly_inv in E. destruct E as [V ->]. destruct V as (Hne & Hpos & HL). cbn [p_order p_coefs] in *.
    destruct (make_const_ok o v Hne Hpos) as [u (E & Vu & Ou & Ev)]. rewrite E' in E. injection E as <-. split; [exact Vu|split; [reflexivity|exact Ev]].
Qed.
