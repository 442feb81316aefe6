(** Bezier arithmetic, conversion from monomials. *)
From Coq Require Import Reals List Lia Lra Binomial.
From Coquelicot Require Import Coquelicot.
From Verif Require Import M_Poly S_Poly S_Affine L_Real L_Point L_BBox L_TensorNat L_Poly L_Poly2 L_Poly3 L_Poly4 L_Poly5.
Import ListNotations.
Local Close Scope Z_scope.
Local Open Scope R_scope.

Lemma termp_S F k i t : termp F (S k) (i :: t) = F O i * termp (fun d => F (S d)) k t.
Proof. unfold termp. cbn [seq map]. rewrite prodl_cons, <- seq_shift, map_map. reflexivity. Qed.
Lemma termp_mult F G k t : termp F k t * termp G k t = termp (fun d i => F d i * G d i) k t.
Proof.
  unfold termp. induction (seq 0 k) as [|d l IH]; [unfold prodl; simpl; ring|]. cbn [map]. rewrite !prodl_cons, <- IH. ring.
Qed.
Lemma termp_ext F G k t : (forall d, (d < k)%nat -> F d (nth d t O) = G d (nth d t O)) -> termp F k t = termp G k t.
Proof. intros H. unfold termp. apply prodl_ext. intros d Hd. apply in_seq in Hd. apply H. lia. Qed.
Lemma rsum_range F lo : forall hi, length lo = length hi ->
  rsum (map (termp F (length lo)) (tp_range lo hi)) = prodl (map (fun d => rsum (map (F d) (seq (nth d lo O) (nth d hi O - nth d lo O)))) (seq 0 (length lo))).
Proof.
  revert F. induction lo as [|l lo IH]; intros F [|h hi] HL; try discriminate; [unfold rsum, termp, prodl; simpl; ring|].
  cbn [tp_range length]. rewrite rsum_flat_map. cbn [seq map]. rewrite prodl_cons. cbn [nth].
  rewrite <- seq_shift, map_map, <- (IH (fun d => F (S d)) hi) by (simpl in HL; lia).
  rewrite <- rsum_scal. apply rsum_ext. intros t _. rewrite map_map. rewrite <- rsum_scal_r. apply rsum_ext. intros i _. apply termp_S.
Qed.
Lemma rsum_all F o : rsum (map (termp F (length o)) (tp_all o)) = prodl (map (fun d => bigsum (nth d o O) (F d)) (seq 0 (length o))).
Proof.
  unfold tp_all. replace (length o) with (length (tp_const (length o) 0)) at 1 by apply repeat_length. rewrite rsum_range by apply repeat_length.
  unfold tp_const. rewrite repeat_length. apply prodl_ext. intros d Hd. apply in_seq in Hd. rewrite repeat_nth_lt by lia. rewrite Nat.sub_0_r. reflexivity.
Qed.
Lemma coef_map o h s : In s (tp_all o) -> nth (tp_flat o s) (map h (tp_all o)) 0 = h s.
Proof.
  intros Hs. rewrite (nth_indep _ 0 (h [])) by (rewrite map_length, tp_all_length; apply tp_all_In in Hs; destruct Hs; apply tp_flat_lt; assumption).
  rewrite (map_nth h), tp_all_nth_flat by assumption. reflexivity.
Qed.
Lemma map2_combine {A B C} (f : A -> B -> C) l : forall m, map2 f l m = map (fun p => f (fst p) (snd p)) (combine l m).
Proof. induction l as [|a l IH]; intros [|b m]; simpl; auto. rewrite IH. reflexivity. Qed.
Lemma map2_coefs o c (f : R -> list nat -> R) : length c = tp_size o -> map2 f c (tp_all o) = map (fun t => f (nth (tp_flat o t) c 0) t) (tp_all o).
Proof. intros Hc. rewrite map2_combine, combine_coefs, map_map by assumption. reflexivity. Qed.
Lemma tsum_map o h g : tsum o (map h (tp_all o)) g = rsum (map (fun t => h t * g t) (tp_all o)).
Proof. apply rsum_ext. intros t Ht. rewrite coef_map by assumption. reflexivity. Qed.
Lemma fold_add_dot {A} (pos : A -> nat) (val : A -> R) W l : forall acc, length acc = length W -> (forall a, In a l -> (pos a < length W)%nat) ->
  length (fold_left (fun acc a => add_at acc (pos a) (val a)) l acc) = length W /\
  dot (fold_left (fun acc a => add_at acc (pos a) (val a)) l acc) W = dot acc W + rsum (map (fun a => val a * nth (pos a) W 0) l).
Proof.
  induction l as [|a l IH]; intros acc HL Hp; [split; [assumption|unfold rsum; simpl; ring]|]. cbn [fold_left map]. rewrite rsum_cons.
  destruct (IH (add_at acc (pos a) (val a))) as [I1 I2]; [rewrite add_at_length; assumption|intros; apply Hp; right; assumption|].
  split; [assumption|]. rewrite I2, dot_add_at by (try assumption; rewrite HL; apply Hp; left; reflexivity). ring.
Qed.
Lemma dot_tsum o c g : length c = tp_size o -> dot c (map g (tp_all o)) = tsum o c g.
Proof. apply dot_tp. Qed.
Lemma nth_overflow_R (l : list R) k : (length l <= k)%nat -> nth k l 0 = 0. Proof. apply nth_overflow. Qed.

(** ** bounds *)
Definition bern_term (o : list nat) (x : list R) : list nat -> R := termp (fun d i => B (nth d o O - 1) i (nth d x 0)) (length o).
Lemma bezier_tsum p x : valid_poly p -> length x = length (p_order p) -> bezier_eval p x = tsum (p_order p) (p_coefs p) (bern_term (p_order p) x).
Proof. intros. rewrite bezier_eval_fE by assumption. reflexivity. Qed.
Lemma prodl_ones {A} (f : A -> R) l : (forall a, In a l -> f a = 1) -> prodl (map f l) = 1.
Proof. induction l as [|a l IH]; intros H; [reflexivity|]. cbn [map]. rewrite prodl_cons, H by (left; reflexivity). rewrite IH by (intros; apply H; right; assumption). ring. Qed.
Lemma prodl_nonneg {A} (f : A -> R) l : (forall a, In a l -> 0 <= f a) -> 0 <= prodl (map f l).
Proof.
  induction l as [|a l IH]; intros H; [unfold prodl; simpl; lra|]. cbn [map]. rewrite prodl_cons. apply Rmult_le_pos; [apply H; left; reflexivity|apply IH; intros; apply H; right; assumption].
Qed.
Lemma bern_sum o x : Forall (fun n => (0 < n)%nat) o -> rsum (map (bern_term o x) (tp_all o)) = 1.
Proof.
  intros Ho. unfold bern_term. rewrite rsum_all. apply prodl_ones. intros d Hd. apply in_seq in Hd.
  assert (Hn : (0 < nth d o O)%nat) by (rewrite Forall_forall in Ho; apply Ho, nth_In; lia).
  destruct (nth d o O) as [|n]; [lia|]. replace (S n - 1)%nat with n by lia. apply B_sum.
Qed.
Lemma bern_nonneg o x t : in_unit_box x -> length x = length o -> 0 <= bern_term o x t.
Proof.
  intros Hb Hx. unfold bern_term, termp. apply prodl_nonneg. intros d Hd. apply in_seq in Hd. apply B_nonneg. unfold in_unit_box in Hb. rewrite Forall_forall in Hb. apply Hb, nth_In. lia.
Qed.
Lemma tp_flat_in o t : In t (tp_all o) -> (tp_flat o t < tp_size o)%nat.
Proof. intros H. apply tp_all_In in H. destruct H. apply tp_flat_lt; assumption. Qed.
Lemma bezier_bounds p x lo hi : valid_poly p -> length x = length (p_order p) -> in_unit_box x -> (forall c, In c (p_coefs p) -> lo <= c <= hi) -> lo <= bezier_eval p x <= hi.
Proof.
  intros Hp Hx Hb Hc. rewrite bezier_tsum by assumption. destruct Hp as (_ & Hpos & HL). set (o := p_order p) in *. unfold tsum.
  assert (Hin : forall t, In t (tp_all o) -> lo <= nth (tp_flat o t) (p_coefs p) 0 <= hi) by (intros t Ht; apply Hc, nth_In; rewrite HL; apply tp_flat_in; assumption).
  split.
  - apply Rle_trans with (rsum (map (fun t => lo * bern_term o x t) (tp_all o))); [rewrite rsum_scal, bern_sum by assumption; lra|].
    apply rsum_le. intros t Ht. apply Rmult_le_compat_r; [apply bern_nonneg; assumption|apply Hin; assumption].
  - apply Rle_trans with (rsum (map (fun t => hi * bern_term o x t) (tp_all o))); [|rewrite rsum_scal, bern_sum by assumption; lra].
    apply rsum_le. intros t Ht. apply Rmult_le_compat_r; [apply bern_nonneg; assumption|apply Hin; assumption].
Qed.
Lemma min_exists (l : list R) : l <> [] -> exists m, In m l /\ forall c, In c l -> m <= c.
Proof.
  induction l as [|a l IH]; intros H; [congruence|]. destruct l as [|b l]; [exists a; split; [left; reflexivity|intros c [<-|[]]; lra]|].
  destruct IH as [m [Hm Hl]]; [discriminate|]. destruct (Rle_dec a m); [exists a|exists m]; (split; [try (left; reflexivity); right; assumption|]);
    intros c [<- | Hc]; try lra; specialize (Hl c Hc); lra.
Qed.
Lemma tp_size_pos o : Forall (fun n => (0 < n)%nat) o -> (0 < tp_size o)%nat.
Proof. induction 1; unfold tp_size in *; simpl; lia. Qed.
Lemma bezier_sign_ok p x : valid_poly p -> length x = length (p_order p) -> in_unit_box x ->
  (bezier_sign p = Spos -> 0 < bezier_eval p x) /\ (bezier_sign p = Sneg -> bezier_eval p x < 0).
Proof.
  intros Hp Hx Hb. assert (Hne : p_coefs p <> []).
  { destruct Hp as (_ & Hpos & HL). intros E. rewrite E in HL. assert (H := tp_size_pos _ Hpos). simpl in HL. lia. }
  unfold bezier_sign. destruct (forallb (fun c => Rltb 0 c) (p_coefs p)) eqn:E1.
  - split; [intros _|discriminate]. rewrite forallb_forall in E1. destruct (min_exists _ Hne) as [m [Hm Hl]].
    assert (Hm0 : 0 < m) by (apply E1 in Hm; apply Rltb_true in Hm; assumption).
    destruct (min_exists (map Ropp (p_coefs p))) as [M [_ HM]]; [destruct (p_coefs p); [congruence|discriminate]|].
    destruct (bezier_bounds p x m (- M) Hp Hx Hb) as [H _]; [intros c Hc; split; [apply Hl; assumption|]; assert (M <= - c) by (apply HM, in_map; assumption); lra|]. lra.
  - destruct (forallb (fun c => Rltb c 0) (p_coefs p)) eqn:E2; [|split; discriminate]. split; [discriminate|intros _]. rewrite forallb_forall in E2.
    destruct (min_exists (map Ropp (p_coefs p))) as [M [HMin HM]]; [destruct (p_coefs p); [congruence|discriminate]|].
    destruct (min_exists _ Hne) as [m [Hm Hl]].
    destruct (bezier_bounds p x m (- M) Hp Hx Hb) as [_ H]; [intros c Hc; split; [apply Hl; assumption|]; assert (M <= - c) by (apply HM, in_map; assumption); lra|].
    apply in_map_iff in HMin. destruct HMin as [c [<- Hc]]. apply E2 in Hc. apply Rltb_true in Hc. lra.
Qed.

(** ** monomials to Bezier *)
Lemma binom_trinomial p s t : (t <= s)%nat -> (s <= p)%nat -> binom s t * binom p s = binom p t * binom (p - t) (s - t).
Proof.
  intros H1 H2. rewrite !binom_C by lia. unfold C. replace (p - t - (s - t))%nat with (p - s)%nat by lia.
  assert (F : forall n, INR (fact n) <> 0) by (intros; apply INR_fact_neq_0). field. repeat split; apply F.
Qed.
Lemma bern_mono_identity p t x : (t <= p)%nat -> rsum (map (fun s => binom s t * B p s x) (seq t (S p - t))) = binom p t * x ^ t.
Proof.
  intros Ht. replace (S p - t)%nat with (S (p - t)) by lia.
  transitivity (rsum (map (fun r => binom p t * x ^ t * B (p - t) r x) (seq 0 (S (p - t))))).
  - replace (seq t (S (p - t))) with (map (fun r => (t + r)%nat) (seq 0 (S (p - t)))).
    + rewrite map_map. apply rsum_ext. intros r Hr. apply in_seq in Hr. unfold B.
      rewrite <- !Rmult_assoc, binom_trinomial by lia. replace (t + r - t)%nat with r by lia. replace (p - (t + r))%nat with (p - t - r)%nat by lia. rewrite pow_add. ring.
    + rewrite <- (Nat.add_0_r t) at 2. generalize (S (p - t)). intros n. generalize 0%nat as a. induction n as [|n IH]; intros a; [reflexivity|]. cbn [seq map]. f_equal. rewrite IH. f_equal. lia.
  - rewrite rsum_scal. fold (bigsum (S (p - t)) (fun r => B (p - t) r x)). rewrite B_sum. ring.
Qed.
Lemma fold_left_div l : forall v, fold_left Rdiv l v = v / prodl l.
Proof.
  induction l as [|a l IH]; intros v; [unfold prodl; simpl; field|]. cbn [fold_left]. rewrite IH, prodl_cons. unfold Rdiv. rewrite Rinv_mult. ring.
Qed.
Lemma fold_left_mul l : forall v, fold_left Rmult l v = v * prodl l.
Proof. induction l as [|a l IH]; intros v; [unfold prodl; simpl; ring|]. cbn [fold_left]. rewrite IH, prodl_cons. ring. Qed.
Lemma prodl_map2 {A B'} (f : A -> B' -> R) da db l m : length l = length m -> prodl (map2 f l m) = prodl (map (fun d => f (nth d l da) (nth d m db)) (seq 0 (length l))).
Proof. intros. f_equal. apply map2_seq. assumption. Qed.
Lemma fold_fold_add {A B'} (l : list A) (m : A -> list B') (pos : B' -> nat) (val : A -> B' -> R) acc :
  fold_left (fun acc a => fold_left (fun acc b => add_at acc (pos b) (val a b)) (m a) acc) l acc
  = fold_left (fun acc ab => add_at acc (pos (snd ab)) (val (fst ab) (snd ab))) (flat_map (fun a => map (fun b => (a, b)) (m a)) l) acc.
Proof.
  revert acc. induction l as [|a l IH]; intros acc; [reflexivity|]. cbn [fold_left flat_map]. rewrite fold_left_app, IH. f_equal.
  generalize (m a). intros k. revert acc. induction k as [|b k IHk]; intros acc; [reflexivity|]. cbn [fold_left map]. apply IHk.
Qed.
Lemma bezier_of_mono_ok p : valid_poly p -> exists q, bezier_of_mono p = Ret q /\ valid_poly q /\ p_order q = p_order p /\
  forall x, length x = length (p_order p) -> bezier_eval q x = mono_eval p x.
Proof.
  intros Hp. assert (Hv := Hp). destruct Hp as (Hne & Hpos & Hc). set (o := p_order p) in *. set (k := length o).
  assert (Hacc : forall g, length (mono_to_bezier_coefs p) = tp_size o /\
     dot (mono_to_bezier_coefs p) (map g (tp_all o)) = rsum (map (fun t => rsum (map (fun s => nth (tp_flat o t) (p_coefs p) 0 / termp (fun d i => binom (nth d o O - 1) i) k t * prodl (map (fun d => binom (nth d s O) (nth d t O)) (seq 0 k)) * g s) (tp_range t o))) (tp_all o))).
  { intros g. unfold mono_to_bezier_coefs. fold o. cbv zeta. rewrite fold_fold_add.
    set (l := flat_map _ _).
    assert (Hl : forall ab, In ab l -> In (snd ab) (tp_all o)).
    { intros [[c t] s] Hin. unfold l in Hin. apply in_flat_map in Hin. destruct Hin as [ct [H1 H2]]. apply in_map_iff in H2. destruct H2 as [s' [E H2]].
      rewrite combine_coefs in H1 by assumption. apply in_map_iff in H1. destruct H1 as [t' [<- H1]]. injection E as <- <- <-. cbn [snd] in *.
      apply tp_all_In in H1. destruct H1 as [L1 I1]. apply tp_range_In in H2; [|assumption]. destruct H2 as [L2 I2]. apply tp_all_In. split; [congruence|]. intros d Hd. apply I2. lia. }
    destruct (fold_add_dot (fun ab => tp_flat o (snd ab))
       (fun ab : (R * list nat) * list nat => fold_left Rmult (map2 binom (snd ab) (snd (fst ab))) (fold_left Rdiv (map2 (fun o i => binom (o - 1) i) o (snd (fst ab))) (fst (fst ab))))
       (map g (tp_all o)) l (repeat 0 (tp_size o))) as [FL FD].
    - rewrite repeat_length, map_length, tp_all_length. reflexivity.
    - intros ab Hab. rewrite map_length, tp_all_length. apply tp_flat_in, Hl. assumption.
    - split; [rewrite FL, map_length, tp_all_length; reflexivity|]. rewrite FD, dot_repeat0, Rplus_0_l. unfold l. rewrite rsum_flat_map, combine_coefs, map_map by assumption.
      apply rsum_ext. intros t Ht. rewrite map_map. apply rsum_ext. intros s Hs. cbn [fst snd].
      apply tp_all_In in Ht. destruct Ht as [L1 I1]. apply tp_range_In in Hs; [|assumption]. destruct Hs as [L2 I2].
      rewrite coef_map by (apply tp_all_In; split; [congruence|]; intros d Hd; apply I2; lia). f_equal.
      rewrite fold_left_mul, fold_left_div. f_equal.
      + f_equal. rewrite (prodl_map2 _ O O) by congruence. reflexivity.
      + rewrite (prodl_map2 _ O O) by congruence. rewrite L2, L1. reflexivity. }
  assert (HL : length (mono_to_bezier_coefs p) = tp_size o) by (apply (Hacc (fun _ => 0))).
  exists (mk_poly o (mono_to_bezier_coefs p)).
  assert (Hq : valid_poly (mk_poly o (mono_to_bezier_coefs p))) by (repeat split; assumption).
  split; [|split; [exact Hq|split; [reflexivity|]]].
  - unfold bezier_of_mono, make_poly, assert_. fold o. destruct (Nat.ltb_spec 0 (length o)); [|destruct o; [congruence|simpl in *; lia]].
    replace (forallb (fun n => (0 <? n)%nat) o) with true; [|symmetry; apply forallb_forall; intros n Hn; apply Nat.ltb_lt; rewrite Forall_forall in Hpos; apply Hpos; assumption].
    rewrite HL, Nat.eqb_refl. reflexivity.
  - intros x Hx. rewrite bezier_tsum by (assumption || exact Hx). cbn [p_order p_coefs]. rewrite <- dot_tsum by assumption.
    destruct (Hacc (bern_term o x)) as [_ ->]. rewrite mono_eval_fE by assumption. fold o. unfold fE, tsum. fold k. apply rsum_ext. intros t Ht.
    assert (Ht' := Ht). apply tp_all_In in Ht'. destruct Ht' as [L1 I1]. fold k in L1.
    rewrite (rsum_ext _ (fun s => nth (tp_flat o t) (p_coefs p) 0 / termp (fun d i => binom (nth d o O - 1) i) k t * termp (fun d i => binom i (nth d t O) * B (nth d o O - 1) i (nth d x 0)) (length t) s)).
    2:{ intros s Hs. rewrite Rmult_assoc. f_equal. unfold bern_term. rewrite L1. fold k. rewrite <- termp_mult. reflexivity. }
    rewrite rsum_scal, rsum_range by exact L1. rewrite L1. unfold Rdiv. rewrite Rmult_assoc. f_equal.
    rewrite (prodl_ext _ (fun d => binom (nth d o O - 1) (nth d t O) * nth d x 0 ^ nth d t O)).
    2:{ intros d Hd. apply in_seq in Hd. assert (H := I1 d). replace (nth d o O - nth d t O)%nat with (S (nth d o O - 1) - nth d t O)%nat by (unfold k in *; lia). apply bern_mono_identity. unfold k in *; lia. }
    assert (G : forall l, (forall d, In d l -> (nth d t O <= nth d o O - 1)%nat) ->
       / prodl (map (fun d => binom (nth d o O - 1) (nth d t O)) l) * prodl (map (fun d => binom (nth d o O - 1) (nth d t O) * nth d x 0 ^ nth d t O) l) = prodl (map (fun d => fM O (nth d o O) (nth d t O) (nth d x 0)) l)).
    { induction l as [|d l IH]; intros Hl; [unfold prodl; simpl; field|]. cbn [map]. rewrite !prodl_cons, <- IH by (intros; apply Hl; right; assumption).
      assert (Hb : 0 < binom (nth d o O - 1) (nth d t O)) by (apply binom_pos, Hl; left; reflexivity).
      assert (Hb2 : prodl (map (fun d => binom (nth d o O - 1) (nth d t O)) l) <> 0).
      { assert (Hl2 : forall d, In d l -> (nth d t O <= nth d o O - 1)%nat) by (intros; apply Hl; right; assumption). clear -Hl2. induction l as [|d l IH]; [unfold prodl; simpl; lra|]. cbn [map]. rewrite prodl_cons. apply Rmult_integral_contrapositive_currified.
        - apply Rgt_not_eq, binom_pos, Hl2. left; reflexivity.
        - apply IH. intros; apply Hl2; right; assumption. }
      unfold fM, DM, falling. cbn [Nat.ltb Nat.leb seq fold_left]. rewrite Nat.sub_0_r. field. split; [assumption|lra]. }
    unfold termp. apply G. intros d Hd. apply in_seq in Hd. specialize (I1 d). unfold k in *. lia.
Qed.
