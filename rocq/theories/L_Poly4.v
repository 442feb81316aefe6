(** Gradients and Hessians of tensor-product expansions. *)
From Coq Require Import Reals List Lia Lra Binomial.
From Coquelicot Require Import Coquelicot.
From Verif Require Import M_Poly S_Poly S_Affine L_Real L_Point L_BBox L_TensorNat L_Poly L_Poly2 L_Poly3.
Import ListNotations.
Local Close Scope Z_scope.
Local Open Scope R_scope.

Definition tsum (o : list nat) (c : list R) (g : list nat -> R) : R := rsum (map (fun t => nth (tp_flat o t) c 0 * g t) (tp_all o)).
Definition termp (F : nat -> nat -> R) (k : nat) (t : list nat) : R := prodl (map (fun d => F d (nth d t O)) (seq 0 k)).
Lemma tsum_ext o c g h : (forall t, In t (tp_all o) -> g t = h t) -> tsum o c g = tsum o c h.
Proof. intros H. apply rsum_ext. intros t Ht. rewrite H by assumption. reflexivity. Qed.
Lemma map2_seq {A B C} (f : A -> B -> C) da db l : forall m, length l = length m -> map2 f l m = map (fun d => f (nth d l da) (nth d m db)) (seq 0 (length l)).
Proof.
  induction l as [|a l IH]; intros [|b m] HL; try discriminate; [reflexivity|]. simpl. f_equal. rewrite <- seq_shift, map_map. apply IH. simpl in HL. lia.
Qed.
Lemma dot_outer_tsum o c vs F : length c = tp_size o -> map (@length R) vs = o ->
  (forall d i, (d < length o)%nat -> (i < nth d o 0)%nat -> nth i (nth d vs []) 0 = F d i) ->
  dot c (outer vs) = tsum o c (termp F (length o)).
Proof.
  intros Hc Hv HF. rewrite outer_pick, Hv, dot_tp by assumption. apply tsum_ext. intros t Ht. apply tp_all_In in Ht. destruct Ht as [Lt It].
  assert (Lv : length vs = length o) by (rewrite <- Hv, map_length; reflexivity).
  unfold pick, termp. rewrite (map2_seq _ [] O) by congruence. rewrite Lv. f_equal. apply map_ext_in. intros d Hd. apply in_seq in Hd. apply HF; [lia|]. apply It. lia.
Qed.
Definition fam := nat -> nat -> nat -> R -> R.
Definition fE (f : fam) (o : list nat) (c : list R) (e : nat -> nat) (x : list R) : R :=
  tsum o c (termp (fun d i => f (e d) (nth d o O) i (nth d x 0)) (length o)).
Lemma expansion_fE basis f p x : (forall n i a, basis n i a = f O n i a) -> expansion basis p x = fE f (p_order p) (p_coefs p) (fun _ => O) x.
Proof.
  intros H. apply tsum_ext. intros t _. unfold basis_term, termp, prodl. f_equal. apply map_ext. intros d. apply H.
Qed.

(** product rule *)
Lemma prodl_ext {A} (f g : A -> R) l : (forall a, In a l -> f a = g a) -> prodl (map f l) = prodl (map g l).
Proof. intros H. f_equal. apply map_ext_in. assumption. Qed.
Lemma is_derive_prodl (g : nat -> R -> R) (g' : nat -> R) l : forall x0 : R, NoDup l -> (forall d, In d l -> is_derive (g d) x0 (g' d)) ->
  is_derive (fun t : R => prodl (map (fun d => g d t) l)) x0 (rsum (map (fun d => prodl (map (fun j => if Nat.eqb j d then g' j else g j x0) l)) l)).
Proof.
  induction l as [|a l IH]; intros x0 Hnd Hg.
  - simpl. apply (is_derive_const (K := R_AbsRing) (V := R_NormedModule) 1 x0).
  - inversion Hnd; subst.
    apply (is_derive_ext (fun t : R => g a t * prodl (map (fun d => g d t) l))); [intros t; reflexivity|].
    replace (rsum _) with (g' a * prodl (map (fun d => g d x0) l) + g a x0 * rsum (map (fun d => prodl (map (fun j => if Nat.eqb j d then g' j else g j x0) l)) l)).
    + apply (is_derive_mult (g a) (fun t => prodl (map (fun d => g d t) l)) x0 (g' a)); [apply Hg; left; reflexivity| |intros; apply Rmult_comm].
      apply IH; [assumption|]. intros d Hd. apply Hg. right. assumption.
    + cbn [map]. rewrite rsum_cons, prodl_cons, Nat.eqb_refl. f_equal.
      * f_equal. apply prodl_ext. intros j Hj. destruct (Nat.eqb_spec j a); [subst; contradiction|reflexivity].
      * rewrite <- rsum_scal. apply rsum_ext. intros d Hd. rewrite prodl_cons. destruct (Nat.eqb_spec a d); [subst; contradiction|reflexivity].
Qed.
Lemma is_derive_rsum {A} (g : A -> R -> R) (g' : A -> R) l (x0 : R) : (forall a, In a l -> is_derive (g a) x0 (g' a)) ->
  is_derive (fun t : R => rsum (map (fun a => g a t) l)) x0 (rsum (map g' l)).
Proof.
  induction l as [|a l IH]; intros Hg; [apply (is_derive_const (K := R_AbsRing) (V := R_NormedModule) 0 x0)|].
  cbn [map]. rewrite rsum_cons. apply (is_derive_ext (fun t : R => g a t + rsum (map (fun a => g a t) l))); [intros t; reflexivity|].
  apply (is_derive_plus (K := R_AbsRing) (V := R_NormedModule) (g a) (fun t => rsum (map (fun a => g a t) l)) x0); [apply Hg; left; reflexivity|].
  apply IH. intros; apply Hg; right; assumption.
Qed.
Definition bump (e : nat -> nat) (d : nat) : nat -> nat := fun k => if Nat.eqb k d then S (e k) else e k.
Definition good_fam (f : fam) : Prop := forall e n i (a : R), is_derive (fun a : R => f e n i a) a (f (S e) n i a).
Lemma prodl_pull (h h' : nat -> R) (c : nat -> R) d l : NoDup l -> In d l ->
  prodl (map (fun j => if Nat.eqb j d then c j * h' j else h j) l) = c d * prodl (map (fun j => if Nat.eqb j d then h' j else h j) l).
Proof.
  induction l as [|a l IH]; intros Hnd Hin; [destruct Hin|]. inversion Hnd; subst. cbn [map]. rewrite !prodl_cons. destruct (Nat.eqb_spec a d) as [-> | Hn].
  - rewrite Rmult_assoc. f_equal. f_equal. apply prodl_ext. intros j Hj. destruct (Nat.eqb_spec j d); [subst; contradiction|reflexivity].
  - destruct Hin as [-> | Hin]; [congruence|]. rewrite IH by assumption. ring.
Qed.
Lemma fE_gradient f o c e x : good_fam f -> length x = length o ->
  has_gradient (length o) (fE f o c e) x (map (fun d => fE f o c (bump e d) x) (seq 0 (length o))).
Proof.
  intros Hf Hx. set (k := length o) in *. split; [rewrite map_length, seq_length; reflexivity|]. intros cv dc Hc Hdc.
  set (T := fun (t : list nat) (s : R) => nth (tp_flat o t) c 0 * prodl (map (fun d => f (e d) (nth d o O) (nth d t O) (cv d s)) (seq 0 k))).
  set (W := fun t : list nat => fun d : nat => prodl (map (fun j => f (bump e d j) (nth j o O) (nth j t O) (nth j x 0)) (seq 0 k))).
  apply (is_derive_ext (fun s : R => rsum (map (fun t => T t s) (tp_all o)))).
  { intros s. unfold fE, tsum, T. apply rsum_ext. intros t _. f_equal. unfold termp. apply prodl_ext. intros d Hd. apply in_seq in Hd. f_equal.
    rewrite (nth_indep _ 0 (cv O s)) by (rewrite map_length, seq_length; unfold k in *; lia). rewrite (map_nth (fun i => cv i s)), seq_nth by (unfold k in *; lia). reflexivity. }
  replace (fold_right Rplus 0 _) with (rsum (map (fun t => nth (tp_flat o t) c 0 * rsum (map (fun d => dc d * W t d) (seq 0 k))) (tp_all o))).
  - apply is_derive_rsum. intros t Ht. unfold T. apply (is_derive_scal (fun s => prodl (map (fun d => f (e d) (nth d o O) (nth d t O) (cv d s)) (seq 0 k)))).
    set (g' := fun d : nat => dc d * f (S (e d)) (nth d o O) (nth d t O) (nth d x 0)).
    replace (rsum (map (fun d => dc d * W t d) (seq 0 k))) with
      (rsum (map (fun d => prodl (map (fun j => if Nat.eqb j d then g' j else f (e j) (nth j o O) (nth j t O) (cv j 0)) (seq 0 k))) (seq 0 k))).
    + apply (is_derive_prodl (fun d s => f (e d) (nth d o O) (nth d t O) (cv d s)) g'); [apply seq_NoDup|].
      intros d Hd. apply in_seq in Hd. unfold g'.
      apply (is_derive_comp (fun a : R => f (e d) (nth d o O) (nth d t O) a) (cv d) 0 _ (dc d)); [|apply Hdc; lia].
      rewrite Hc by lia. apply Hf.
    + apply rsum_ext. intros d Hd. unfold g', W. rewrite prodl_pull by (apply seq_NoDup || assumption). f_equal. apply prodl_ext. intros j Hj. apply in_seq in Hj.
      unfold bump. destruct (Nat.eqb j d); [reflexivity|]. rewrite Hc by lia. reflexivity.
  - change (fold_right Rplus 0) with rsum.
    transitivity (rsum (map (fun d => dc d * fE f o c (bump e d) x) (seq 0 k))).
    + rewrite (rsum_ext _ (fun t => rsum (map (fun d => nth (tp_flat o t) c 0 * (dc d * W t d)) (seq 0 k)))) by (intros; rewrite rsum_scal; reflexivity).
      rewrite rsum_swap. apply rsum_ext. intros d _. unfold fE, tsum. rewrite <- rsum_scal. apply rsum_ext. intros t _. unfold W, termp. fold k. ring.
    + apply rsum_ext. intros d Hd. apply in_seq in Hd. rewrite map_seq_nth' by lia. ring.
Qed.
Lemma has_gradient_ext d f g p w : (forall q, length q = d -> f q = g q) -> has_gradient d f p w -> has_gradient d g p w.
Proof.
  intros H [HL HG]. split; [assumption|]. intros c dc H0 H1. apply (is_derive_ext (fun t => f (map (fun i => c i t) (seq 0 d)))); [|apply HG; assumption].
  intros t. apply H. rewrite map_length, seq_length. reflexivity.
Qed.

(** ** Bernstein derivatives *)
Fixpoint DB (e p i : nat) (x : R) {struct e} : R :=
  match e with
  | O => B p i x
  | S e' => match p with O => 0 | S p' => INR p * ((match i with O => 0 | S i' => DB e' p' i' x end) - DB e' p' i x) end
  end.
Lemma DB_1 p i x : DB 1 p i x = dB p i x. Proof. destruct p; reflexivity. Qed.
Lemma DB_gt e : forall p i x, (p < i)%nat -> DB e p i x = 0.
Proof.
  induction e as [|e IH]; intros p i x H; [apply B_gt; assumption|]. destruct p as [|p]; [reflexivity|]. cbn [DB]. destruct i as [|i]; [lia|]. rewrite !IH by lia. ring.
Qed.
Lemma DB_high e : forall p i x, (p < e)%nat -> DB e p i x = 0.
Proof.
  induction e as [|e IH]; intros p i x H; [lia|]. destruct p as [|p]; [reflexivity|]. cbn [DB]. destruct i as [|i]; rewrite !IH by lia; ring.
Qed.
Lemma is_derive_const0 (x : R) : is_derive (fun _ : R => 0) x 0.
Proof. apply (is_derive_const (K := R_AbsRing) (V := R_NormedModule) 0 x). Qed.
Lemma DB_der e : forall p i (x : R), is_derive (fun x : R => DB e p i x) x (DB (S e) p i x).
Proof.
  induction e as [|e IH]; intros p i x.
  - cbn [DB]. destruct p as [|p].
    + destruct i as [|i]; [apply (is_derive_ext (fun _ : R => 1)); [intros; symmetry; apply B_00|]; apply (is_derive_const (K := R_AbsRing) (V := R_NormedModule) 1 x)|].
      apply (is_derive_ext (fun _ : R => 0)); [intros; symmetry; apply B_gt; lia|apply is_derive_const0].
    + destruct i as [|i]; [|apply B_der]. replace (INR (S p) * (0 - B p 0 x)) with (- INR (S p) * B p 0 x) by ring. apply B_der_0.
  - destruct p as [|p]; [apply is_derive_const0|].
    change (DB (S (S e)) (S p) i x) with (INR (S p) * ((match i with O => 0 | S i' => DB (S e) p i' x end) - DB (S e) p i x)).
    apply (is_derive_ext (fun x : R => INR (S p) * ((match i with O => 0 | S i' => DB e p i' x end) - DB e p i x))); [intros; reflexivity|].
    apply (is_derive_scal (fun x : R => (match i with O => 0 | S i' => DB e p i' x end) - DB e p i x)).
    apply (is_derive_minus (K := R_AbsRing) (V := R_NormedModule) (fun x : R => match i with O => 0 | S i' => DB e p i' x end) (fun x : R => DB e p i x)); [|apply IH].
    destruct i; [apply is_derive_const0|apply IH].
Qed.
Lemma powers_map x n : forall v, powers x v n = map (fun i => v * x ^ i) (seq 0 n).
Proof.
  induction n as [|n IH]; intros v; [reflexivity|]. cbn [powers seq map]. f_equal; [simpl; ring|]. rewrite IH, <- seq_shift, map_map. apply map_ext. intros i. simpl. ring.
Qed.
Lemma powers_length x v n : length (powers x v n) = n. Proof. rewrite powers_map, map_length, seq_length. reflexivity. Qed.
Lemma bernstein_values_bvec x n : bernstein_values x n = bvec x n.
Proof.
  unfold bernstein_values, bvec.
  assert (L1 : length (map2 Rmult (powers x 1 n) (map (binom (n - 1)) (seq 0 n))) = n) by (rewrite map2_length; rewrite ?powers_length, ?map_length, ?seq_length; reflexivity).
  assert (L2 : length (rev (powers (1 - x) 1 n)) = n) by (rewrite rev_length, powers_length; reflexivity).
  apply nth_ext with (d := 0) (d' := 0); [rewrite map2_length, map_length, seq_length; congruence|].
  intros i Hi. rewrite map2_length, L1 in Hi by congruence. rewrite (map2_nth _ _ _ i 0 0 0) by congruence.
  rewrite (map2_nth _ _ _ i 0 0 0) by (rewrite ?powers_length, ?map_length, ?seq_length; congruence).
  rewrite rev_nth by (rewrite powers_length; assumption). rewrite powers_length, !powers_map, !map_seq_nth' by lia.
  unfold B. replace (n - S i)%nat with (n - 1 - i)%nat by lia. ring.
Qed.
Lemma bstep_down deg v k : (k < length v)%nat ->
  let w := fold_left (fun v i => set_at v i (INR deg * (nth (i - 1) v 0 - nth i v 0))) (rev (seq 1 k)) v in
  length w = length v /\ forall j, nth j w 0 = if Nat.leb 1 j && Nat.leb j k then INR deg * (nth (j - 1) v 0 - nth j v 0) else nth j v 0.
Proof.
  revert v. induction k as [|k IH]; intros v Hk; cbv zeta.
  - cbn [seq rev fold_left]. split; [reflexivity|]. intros j. destruct (Nat.leb_spec 1 j), (Nat.leb_spec j 0); cbn [andb]; try lia; reflexivity.
  - rewrite seq_S, rev_app_distr. cbn [rev app Nat.add]. cbn [fold_left]. set (v1 := set_at v (S k) _).
    destruct (IH v1) as [IL IN]; [unfold v1; rewrite set_at_len; lia|]. unfold v1 in IL. rewrite set_at_len in IL. fold v1 in IL. split; [exact IL|].
    intros j. cbv zeta in IN. rewrite IN. unfold v1. rewrite !nth_set_at.
    destruct (Nat.leb_spec 1 j), (Nat.leb_spec j k), (Nat.leb_spec j (S k)); cbn [andb]; try lia;
      repeat (destruct (Nat.eq_dec _ _); try lia); try reflexivity; subst; destruct (lt_dec (S k) (length v)); try lia; reflexivity.
Qed.
Lemma bernstein_ders_DB e : forall x n, bernstein_ders x n e = map (fun i => DB e (n - 1) i x) (seq 0 n).
Proof.
  induction e as [|e IH]; intros x n; [apply bernstein_values_bvec|]. cbn [bernstein_ders]. destruct (Nat.leb_spec n (S e)) as [Hle | Hlt].
  - apply nth_ext with (d := 0) (d' := 0); [rewrite repeat_length, map_length, seq_length; reflexivity|]. rewrite repeat_length. intros i Hi.
    rewrite nth_repeat0, map_seq_nth' by assumption. destruct n as [|n]; [lia|]. rewrite DB_high by lia. reflexivity.
  - destruct n as [|[|p]]; try lia. cbv zeta. rewrite IH. replace (S (S p) - 1)%nat with (S p) by lia. replace (S p - 1)%nat with p by lia. replace (S (S p) - 2)%nat with p by lia.
    set (v := map (fun i => DB e p i x) (seq 0 (S p))). assert (Lv : length v = S p) by (unfold v; rewrite map_length, seq_length; reflexivity).
    assert (Nv : forall i, nth i v 0 = DB e p i x).
    { intros i. destruct (lt_dec i (S p)); [unfold v; apply map_seq_nth'; assumption|]. rewrite nth_overflow by lia. rewrite DB_gt by lia. reflexivity. }
    set (v1 := v ++ [INR (S p) * nth p v 0]). assert (Lv1 : length v1 = S (S p)) by (unfold v1; rewrite app_length, Lv; simpl; lia).
    destruct (bstep_down (S p) v1 p) as [BL BN]; [lia|]. cbv zeta in BN. set (w := fold_left _ (rev (seq 1 p)) v1) in *.
    apply nth_ext with (d := 0) (d' := 0); [rewrite set_at_len, BL, Lv1, map_length, seq_length; reflexivity|].
    rewrite set_at_len, BL, Lv1. intros i Hi. rewrite nth_set_at, map_seq_nth' by assumption. rewrite !BN. cbn [Nat.leb andb].
    assert (N1 : forall j, (j < S p)%nat -> nth j v1 0 = DB e p j x) by (intros j Hj; unfold v1; rewrite app_nth1 by lia; apply Nv).
    destruct (Nat.eq_dec i 0) as [-> | Hi0].
    + destruct (lt_dec 0 (length w)); [|lia]. rewrite N1 by lia. cbn [DB]. generalize (INR (S p)). intros. ring.
    + destruct i as [|i]; [lia|]. destruct (Nat.leb_spec (S i) p); cbn [andb Nat.leb].
      * replace (S i - 1)%nat with i by lia. rewrite !N1 by lia. reflexivity.
      * assert (i = p) by lia. subst i. unfold v1. rewrite app_nth2 by lia. rewrite Lv, Nat.sub_diag. cbn [nth]. rewrite Nv. cbn [DB]. rewrite (DB_gt e p (S p)) by lia. generalize (INR (S p)). intros. ring.
Qed.

(** ** Monomial derivatives *)
Definition falling (i e : nat) : R := fold_left (fun v j => v * INR (i - j)) (seq 0 e) 1.
Definition DM (e i : nat) (x : R) : R := if Nat.ltb i e then 0 else falling i e * x ^ (i - e).
Lemma fold_mult_out {A} (g : A -> R) l : forall v, fold_left (fun v j => v * g j) l v = v * fold_left (fun v j => v * g j) l 1.
Proof. induction l as [|a l IH]; intros v; simpl; [ring|]. rewrite IH, (IH (1 * g a)). ring. Qed.
Lemma falling_S i e : falling i (S e) = falling i e * INR (i - e).
Proof. unfold falling. rewrite seq_S, fold_left_app. reflexivity. Qed.
Lemma DM_der e i (x : R) : is_derive (fun x : R => DM e i x) x (DM (S e) i x).
Proof.
  unfold DM. destruct (Nat.ltb_spec i e).
  - destruct (Nat.ltb_spec i (S e)); [apply is_derive_const0|lia].
  - destruct (Nat.ltb_spec i (S e)).
    + replace (i - e)%nat with O by lia. apply (is_derive_ext (fun _ : R => falling i e * 1)); [reflexivity|].
      apply (is_derive_const (K := R_AbsRing) (V := R_NormedModule) (falling i e * 1) x).
    + rewrite falling_S. replace (i - e)%nat with (S (i - S e)) by lia. set (m := (i - S e)%nat).
      replace (falling i e * INR (S m) * x ^ m) with (falling i e * (INR (S m) * x ^ m)) by ring.
      apply (is_derive_scal (fun x : R => x ^ S m)).
      assert (H1 := is_derive_pow (fun x : R => x) (S m) x 1). replace (INR (S m) * x ^ m) with (INR (S m) * 1 * x ^ Nat.pred (S m)) by (cbn [Nat.pred]; ring).
      apply H1. apply (is_derive_id (K := R_AbsRing) x).
Qed.
Lemma monomial_basis_length x n e : length (monomial_basis x n e) = n.
Proof.
  unfold monomial_basis. rewrite app_length, repeat_length, map2_length by (rewrite seq_length, powers_length; reflexivity). rewrite seq_length. lia.
Qed.
Lemma monomial_basis_DM e x n i : (i < n)%nat -> nth i (monomial_basis x n e) 0 = DM e i x.
Proof.
  intros Hi. unfold monomial_basis, DM. destruct (Nat.ltb_spec i e).
  - rewrite app_nth1 by (rewrite repeat_length; lia). apply nth_repeat0.
  - rewrite app_nth2 by (rewrite repeat_length; lia). rewrite repeat_length.
    rewrite (map2_nth _ _ _ _ O 0 0) by (rewrite ?seq_length, ?powers_length; lia). rewrite seq_nth by lia. rewrite powers_map, map_seq_nth' by lia.
    replace (i - Nat.min e n)%nat with (i - e)%nat by lia. replace (e + (i - e))%nat with i by lia. rewrite fold_mult_out. unfold falling. ring.
Qed.
