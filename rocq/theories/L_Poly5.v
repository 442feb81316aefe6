(** Values, gradients and Hessians of Bezier and monomial polynomials. *)
From Coq Require Import Reals List Lia Lra Binomial.
From Coquelicot Require Import Coquelicot.
From Verif Require Import M_Poly S_Poly S_Affine L_Real L_Point L_BBox L_TensorNat L_Poly L_Poly2 L_Poly3 L_Poly4.
Import ListNotations.
Local Close Scope Z_scope.
Local Open Scope R_scope.

Lemma vecs_nth f o x d : length x = length o -> (d < length o)%nat -> nth d (vecs f o x) [] = f (nth d x 0) (nth d o O).
Proof. intros H Hd. unfold vecs. rewrite (map2_nth _ o x d O 0 []) by congruence. reflexivity. Qed.
Lemma vecs_der_lengths f f' o x d : length x = length o -> (d < length o)%nat -> (forall a n, length (f a n) = n) -> (forall a n, length (f' a n) = n) ->
  map (@length R) (set_at (vecs f o x) d (nth d (vecs f' o x) [])) = o.
Proof.
  intros Hx Hd Hf Hf'. transitivity (map (@length R) (vecs f o x)); [|apply vecs_lengths; assumption]. apply (comps_len (vecs f o x) (vecs f' o x)).
  - rewrite !vecs_length by assumption. reflexivity.
  - intros k Hk. rewrite vecs_length in Hk by assumption. rewrite !vecs_nth by assumption. rewrite Hf, Hf'. reflexivity.
  - right. apply in_map_iff. exists d. split; [reflexivity|]. apply in_seq. rewrite vecs_length by assumption. lia.
Qed.
Section Fam.
Context (f : fam) (b0 b1 : R -> nat -> list R).
Hypothesis L0 : forall a n, length (b0 a n) = n.
Hypothesis L1 : forall a n, length (b1 a n) = n.
Hypothesis N0 : forall a n i, (i < n)%nat -> nth i (b0 a n) 0 = f O n i a.
Hypothesis N1 : forall a n i, (i < n)%nat -> nth i (b1 a n) 0 = f 1%nat n i a.
Lemma dot_fE0 o c x : length c = tp_size o -> length x = length o -> dot c (outer (vecs b0 o x)) = fE f o c (fun _ => O) x.
Proof.
  intros Hc Hx. apply dot_outer_tsum; [assumption|apply vecs_lengths; assumption|]. intros d i Hd Hi. rewrite vecs_nth by assumption. apply N0. assumption.
Qed.
Lemma dot_fE1 o c x d : length c = tp_size o -> length x = length o -> (d < length o)%nat ->
  dot c (outer (set_at (vecs b0 o x) d (nth d (vecs b1 o x) []))) = fE f o c (bump (fun _ => O) d) x.
Proof.
  intros Hc Hx Hd. apply dot_outer_tsum; [assumption|apply vecs_der_lengths; assumption|]. intros k i Hk Hi. rewrite nth_set_at, vecs_length by assumption.
  unfold bump. destruct (Nat.eq_dec k d) as [-> | Hn].
  - destruct (lt_dec d (length o)); [|lia]. rewrite Nat.eqb_refl, vecs_nth by assumption. apply N1. assumption.
  - destruct (Nat.eqb_spec k d); [contradiction|]. rewrite vecs_nth by assumption. apply N0. assumption.
Qed.
End Fam.

(** Bezier *)
Definition fB : fam := fun e n i a => DB e (n - 1) i a.
Definition fM : fam := fun e n i a => DM e i a.
Lemma fB_good : good_fam fB. Proof. intros e n i a. apply DB_der. Qed.
Lemma fM_good : good_fam fM. Proof. intros e n i a. apply DM_der. Qed.
Lemma bezier_eval_fE p x : valid_poly p -> length x = length (p_order p) -> bezier_eval p x = fE fB (p_order p) (p_coefs p) (fun _ => O) x.
Proof.
  intros Hp Hx. rewrite bezier_eval_outer by assumption. destruct Hp as (_ & _ & Hc).
  apply dot_fE0; try assumption; [apply bvec_length|]. intros a n i Hi. apply bvec_nth. assumption.
Qed.
Lemma bezier_grad_fE p x : valid_poly p -> length x = length (p_order p) ->
  bezier_grad p x = map (fun d => fE fB (p_order p) (p_coefs p) (bump (fun _ => O) d) x) (seq 0 (length (p_order p))).
Proof.
  intros Hp Hx. rewrite bezier_grad_outer by assumption. destruct Hp as (_ & _ & Hc). apply map_ext_in. intros d Hd. apply in_seq in Hd.
  apply dot_fE1; try assumption; try lia; [apply bvec_length|apply dbvec_length| |].
  - intros a n i Hi. apply bvec_nth. assumption.
  - intros a n i Hi. unfold dbvec. rewrite map_seq_nth' by assumption. symmetry. apply DB_1.
Qed.
Lemma basis_ext_exp (b b' : nat -> nat -> R -> R) p x : (forall n i a, (i < n)%nat -> b n i a = b' n i a) -> expansion b p x = expansion b' p x.
Proof.
  intros H. apply (tsum_ext (p_order p) (p_coefs p)). intros t Ht. apply tp_all_In in Ht. destruct Ht as [Lt It]. unfold basis_term. f_equal. apply map_ext_in. intros d Hd. apply in_seq in Hd.
  apply H. apply It. lia.
Qed.
Lemma bezier_expansion p x : valid_poly p -> length x = length (p_order p) -> bezier_eval p x = expansion bernstein p x.
Proof.
  intros Hp Hx. rewrite (basis_ext_exp bernstein (fun n i a => B (n - 1) i a)) by (intros; apply B_bernstein; assumption).
  rewrite (expansion_fE _ fB) by reflexivity. apply bezier_eval_fE; assumption.
Qed.
Lemma mono_eval_fE p x : valid_poly p -> length x = length (p_order p) -> mono_eval p x = fE fM (p_order p) (p_coefs p) (fun _ => O) x.
Proof.
  intros Hp Hx. rewrite mono_eval_outer by assumption. destruct Hp as (_ & _ & Hc).
  apply dot_fE0; try assumption; [apply mvec_length|]. intros a n i Hi. unfold mvec. rewrite map_seq_nth' by assumption. unfold fM, DM, falling. cbn. rewrite Nat.sub_0_r. ring.
Qed.
Lemma mono_expansion p x : valid_poly p -> length x = length (p_order p) -> mono_eval p x = expansion monomial p x.
Proof.
  intros Hp Hx. rewrite (expansion_fE monomial fM); [apply mono_eval_fE; assumption|]. intros n i a. unfold monomial, fM, DM, falling. cbn. rewrite Nat.sub_0_r. ring.
Qed.
Lemma bezier_grad_ok p x : valid_poly p -> length x = length (p_order p) -> has_gradient (length (p_order p)) (bezier_eval p) x (bezier_grad p x).
Proof.
  intros Hp Hx. rewrite bezier_grad_fE by assumption.
  apply (has_gradient_ext _ (fE fB (p_order p) (p_coefs p) (fun _ => O))); [intros; symmetry; apply bezier_eval_fE; assumption|].
  apply fE_gradient; [apply fB_good|assumption].
Qed.

(** horner_der *)
Definition dmvec (x : R) (n : nat) : list R := map (fun i => DM 1 i x) (seq 0 n).
Lemma dmvec_length x n : length (dmvec x n) = n. Proof. unfold dmvec. rewrite map_length, seq_length. reflexivity. Qed.
Lemma DM_1 i x : DM 1 i x = match i with O => 0 | S j => INR (S j) * x ^ j end.
Proof.
  unfold DM, falling. destruct i as [|j]; [reflexivity|]. destruct (Nat.ltb_spec (S j) 1); [lia|]. cbn [seq fold_left]. rewrite Nat.sub_0_r. replace (S j - 1)%nat with j by lia. ring.
Qed.
Lemma der_fold x (h : nat -> R) k : forall v, fold_left (fun d i => d * x + INR i * h i) (rev (seq 1 k)) v = v * x ^ k + bigsum k (fun j => INR (S j) * h (S j) * x ^ j).
Proof.
  induction k as [|k IH]; intros v; [rewrite bigsum_0; simpl; ring|]. rewrite seq_S, rev_app_distr. cbn [rev app Nat.add fold_left]. rewrite IH, bigsum_S.
  generalize (INR (S k)). intros. simpl. ring.
Qed.
Lemma horner_der_dot x b : (2 <= length b)%nat ->
  fold_left (fun d i => d * x + INR i * nth i b 0) (rev (seq 1 (length b - 1 - 1))) (INR (length b - 1) * last b 0) = dot b (dmvec x (length b)).
Proof.
  intros Hb. rewrite der_fold, last_nth. unfold dmvec. rewrite dot_map_seq. set (n := length b) in *. replace n with (S (S (n - 2))) at 5 by lia.
  rewrite bigsum_S, bigsum_S_l, DM_1. replace (n - 1 - 1)%nat with (n - 2)%nat by lia. replace (S (n - 2)) with (n - 1)%nat by lia.
  rewrite (DM_1 (n - 1)). replace (n - 1)%nat with (S (n - 2)) at 2 4 by lia.
  rewrite (bigsum_ext (n - 2) (fun i => nth (S i) b 0 * DM 1 (S i) x) (fun j => INR (S j) * nth (S j) b 0 * x ^ j)) by (intros; rewrite DM_1; ring).
  replace (S (n - 2)) with (n - 1)%nat by lia. ring.
Qed.
Lemma vmul_add_nth x u v c : length u = length v -> (c < length u)%nat -> nth c (vmul_add x u v) 0 = mul_add x (nth c u 0) (nth c v 0).
Proof. intros HL Hc. unfold vmul_add. apply map2_nth; assumption. Qed.
Lemma nth_comp (beta : list (list R)) c i : nth i (map (fun w => nth c w 0) beta) 0 = nth c (nth i beta []) 0.
Proof. rewrite <- (map_nth (fun w => nth c w 0)). f_equal. destruct c; reflexivity. Qed.
Lemma vmul_fold x beta q ids : forall v, Forall (fun v => length v = q) beta -> length v = q -> (forall i, In i ids -> (i < length beta)%nat) ->
  length (fold_left (fun v i => vmul_add x v (nth i beta [])) ids v) = q /\
  forall c, (c < q)%nat -> nth c (fold_left (fun v i => vmul_add x v (nth i beta [])) ids v) 0
    = fold_left (mul_add x) (map (fun i => nth i (map (fun w => nth c w 0) beta) 0) ids) (nth c v 0).
Proof.
  induction ids as [|i ids IH]; intros v Hq Hv Hi; [split; [assumption|reflexivity]|]. cbn [fold_left map].
  assert (Li : length (nth i beta []) = q) by (rewrite Forall_forall in Hq; apply Hq, nth_In, Hi; left; reflexivity).
  destruct (IH (vmul_add x v (nth i beta []))) as [IL IN]; [assumption|unfold vmul_add; rewrite map2_length; congruence|intros; apply Hi; right; assumption|].
  split; [assumption|]. intros c Hc. rewrite IN by assumption. f_equal. rewrite vmul_add_nth by congruence. f_equal.
  rewrite nth_comp. reflexivity.
Qed.
Lemma map_seq_nth_gen {A} (f : nat -> A) a n k d : (k < n)%nat -> nth k (map f (seq a n)) d = f (a + k)%nat.
Proof. intros H. rewrite (nth_indep _ d (f O)) by (rewrite map_length, seq_length; assumption). rewrite (map_nth f), seq_nth by assumption. reflexivity. Qed.
Lemma list_ends {A} (l : list A) d : (2 <= length l)%nat -> l = hd d l :: map (fun i => nth i l d) (seq 1 (length l - 2)) ++ [last l d].
Proof.
  intros H. apply nth_ext with (d := d) (d' := d); [cbn [length]; rewrite app_length, map_length, seq_length; cbn [length]; lia|].
  intros k Hk. destruct k as [|k]; [rewrite hd_nth0; reflexivity|]. cbn [nth]. destruct (lt_dec k (length l - 2)).
  - rewrite app_nth1 by (rewrite map_length, seq_length; assumption). rewrite map_seq_nth_gen by assumption. reflexivity.
  - rewrite app_nth2 by (rewrite map_length, seq_length; lia). rewrite map_length, seq_length. replace (k - (length l - 2))%nat with O by lia. cbn [nth]. rewrite last_nth. f_equal. lia.
Qed.
Lemma horner_vec x beta q : (2 <= length beta)%nat -> Forall (fun v => length v = q) beta ->
  let val := vmul_add x (fold_left (fun v i => vmul_add x v (nth i beta [])) (rev (seq 1 (length beta - 1 - 1))) (last beta [])) (hd [] beta) in
  length val = q /\ forall c, (c < q)%nat -> nth c val 0 = dot (map (fun v => nth c v 0) beta) (mvec x (length beta)).
Proof.
  intros Hb Hq. cbv zeta.
  assert (Hlast : length (last beta []) = q) by (rewrite last_nth; rewrite Forall_forall in Hq; apply Hq, nth_In; lia).
  assert (Hhd : length (hd [] beta) = q) by (rewrite hd_nth0; rewrite Forall_forall in Hq; apply Hq, nth_In; lia).
  destruct (vmul_fold x beta q (rev (seq 1 (length beta - 1 - 1))) (last beta []) Hq Hlast) as [FL FN]; [intros i Hi; apply in_rev, in_seq in Hi; lia|].
  split; [unfold vmul_add at 1; rewrite map2_length; congruence|]. intros c Hc. rewrite vmul_add_nth by congruence. rewrite FN by assumption.
  set (l := map (fun v => nth c v 0) beta). assert (Ll : length l = length beta) by (unfold l; apply map_length).
  replace (length beta) with (length l) by assumption. rewrite <- horner_loop_dot by lia. unfold horner_loop.
  assert (El : tl (rev l) = rev (map (fun i => nth i l 0) (seq 1 (length l - 2))) ++ [hd 0 l]).
  { transitivity (tl (rev (hd 0 l :: map (fun i => nth i l 0) (seq 1 (length l - 2)) ++ [last l 0]))); [do 2 f_equal; apply list_ends; lia|].
    cbn [rev]. rewrite rev_app_distr. reflexivity. }
  rewrite El, fold_left_app. cbn [fold_left]. rewrite <- map_rev. replace (length l - 1 - 1)%nat with (length l - 2)%nat by lia. f_equal.
  - rewrite !last_nth, Ll. f_equal. unfold l. rewrite nth_comp. reflexivity.
  - rewrite !hd_nth0. unfold l. rewrite nth_comp. reflexivity.
Qed.
Lemma horner_der_cons n ro a rp c : (2 <= n)%nat -> horner_der (n :: ro) (a :: rp) c =
  let b := read_n (horner_der ro rp) n c in
  (vmul_add a (fold_left (fun v i => vmul_add a v (nth i (fst b) [])) (rev (seq 1 (length (fst b) - 1 - 1))) (last (fst b) [])) (hd [] (fst b))
   ++ [fold_left (fun d i => d * a + INR i * nth i (map (hd 0) (fst b)) 0) (rev (seq 1 (length (map (hd 0) (fst b)) - 1 - 1))) (INR (length (map (hd 0) (fst b)) - 1) * last (map (hd 0) (fst b)) 0)], snd b).
Proof.
  intros Hn. cbn [horner_der]. cbv zeta. rewrite map_length, read_n_length. f_equal. f_equal. f_equal.
  set (bt := fst (read_n (horner_der ro rp) n c)). assert (Lb : length bt = n) by apply read_n_length.
  assert (E : forall i, nth i (map (hd 0) bt) 0 = hd 0 (nth i bt [])) by (intros i; change 0 with (hd 0 (@nil R)) at 2; apply map_nth).
  rewrite !last_nth, map_length, E. 
  assert (G : forall ids v, fold_left (fun d i => d * a + INR i * hd 0 (nth i bt [])) ids v = fold_left (fun d i => d * a + INR i * nth i (map (hd 0) bt) 0) ids v).
  { induction ids as [|i ids IH]; intros v; [reflexivity|]. cbn [fold_left]. rewrite E, IH. reflexivity. }
  rewrite G. reflexivity.
Qed.
Lemma mono_grad_fE p x : valid_poly p -> Forall (fun n => (2 <= n)%nat) (p_order p) -> length x = length (p_order p) ->
  mono_grad p x = map (fun d => fE fM (p_order p) (p_coefs p) (bump (fun _ => O) d) x) (seq 0 (length (p_order p))).
Proof.
  intros (Hne & Hpos & Hc) H2 Hx. unfold mono_grad.
  rewrite (eval_der_outer mvec dmvec (fun n => (2 <= n)%nat)
    (fun a beta => vmul_add a (fold_left (fun v i => vmul_add a v (nth i beta [])) (rev (seq 1 (length beta - 1 - 1))) (last beta [])) (hd [] beta))
    (fun a b => fold_left (fun d i => d * a + INR i * nth i b 0) (rev (seq 1 (length b - 1 - 1))) (INR (length b - 1) * last b 0)) horner_der).
  - rewrite !rev_involutive. cbn [fst]. rewrite firstn_exact by assumption. unfold comps. cbn [map tl]. rewrite map_map. rewrite vecs_length by assumption.
    apply map_ext_in. intros d Hd. apply in_seq in Hd. apply dot_fE1; try assumption; try lia; [apply mvec_length|apply dmvec_length| |].
    + intros a n i Hi. unfold mvec. rewrite map_seq_nth' by assumption. unfold fM, DM, falling. cbn. rewrite Nat.sub_0_r. ring.
    + intros a n i Hi. unfold dmvec. rewrite map_seq_nth' by assumption. reflexivity.
  - apply mvec_length.
  - apply dmvec_length.
  - intros a beta q Hb Hq. apply horner_vec; assumption.
  - intros a b Hb. apply horner_der_dot. assumption.
  - reflexivity.
  - intros n ro a rp c Hn. apply horner_der_cons. assumption.
  - rewrite !rev_length. assumption.
  - apply Forall_rev'. assumption.
  - rewrite rev_involutive. lia.
Qed.
Lemma mono_grad_ok p x : valid_poly p -> Forall (fun n => (2 <= n)%nat) (p_order p) \/ length (p_order p) = 1%nat -> length x = length (p_order p) ->
  has_gradient (length (p_order p)) (mono_eval p) x (mono_grad p x).
Proof.
  intros Hp H2 Hx.
  assert (Hm : mono_grad p x = map (fun d => fE fM (p_order p) (p_coefs p) (bump (fun _ => O) d) x) (seq 0 (length (p_order p)))).
  { destruct (Forall_Exists_dec (fun n => (2 <= n)%nat) (fun n => le_dec 2 n) (p_order p)) as [H | Hn]; [apply mono_grad_fE; assumption|].
    destruct H2 as [H2 | H1]; [apply mono_grad_fE; assumption|]. destruct p as [o c]. cbn [p_order p_coefs] in *. destruct o as [|n [|]]; try discriminate.
    destruct Hp as (_ & Hpos & Hc). cbn [p_order p_coefs] in *. inversion Hpos; subst. apply Exists_exists in Hn. destruct Hn as [m [[<- | []] Hm]].
    assert (n = 1%nat) by lia. subst n. destruct c as [|c0 [|]]; try discriminate. destruct x as [|x0 [|]]; try discriminate.
    unfold mono_grad. cbn. f_equal. unfold fE, tsum, termp, fM. cbn. unfold rsum, prodl. cbn. unfold DM. cbn. ring. }
  rewrite Hm. apply (has_gradient_ext _ (fE fM (p_order p) (p_coefs p) (fun _ => O))); [intros; symmetry; apply mono_eval_fE; assumption|].
  apply fE_gradient; [apply fM_good|assumption].
Qed.

(** Hessians *)
Lemma fE_ext f o c e e' x : (forall d, (d < length o)%nat -> e d = e' d) -> fE f o c e x = fE f o c e' x.
Proof. intros H. apply tsum_ext. intros t _. unfold termp. apply prodl_ext. intros d Hd. apply in_seq in Hd. rewrite H by lia. reflexivity. Qed.
Lemma fold_left_sum {A} (g : A -> R) l : forall v, fold_left (fun acc a => acc + g a) l v = v + rsum (map g l).
Proof. induction l as [|a l IH]; intros v; [unfold rsum; simpl; ring|]. cbn [fold_left map]. rewrite IH, rsum_cons. ring. Qed.
Lemma fold_left_prod {A} (g : A -> R) l : forall v, fold_left (fun acc a => acc * g a) l v = v * prodl (map g l).
Proof. induction l as [|a l IH]; intros v; [unfold prodl; simpl; ring|]. cbn [fold_left map]. rewrite IH, prodl_cons. ring. Qed.
Lemma hess_entry_fE (f : fam) (bs : R -> nat -> nat -> list R) p x ij :
  length (p_coefs p) = tp_size (p_order p) -> (forall e a n i, (i < n)%nat -> nth i (bs a n e) 0 = f e n i a) ->
  hess_entry (fun der dir => bs (nth dir x 0) (nth dir (p_order p) O) der) p ij = fE f (p_order p) (p_coefs p) (hess_ders ij) x.
Proof.
  intros Hc Hb. unfold hess_entry. rewrite fold_left_sum, Rplus_0_l, combine_coefs, map_map by assumption. unfold fE, tsum. apply rsum_ext. intros t Ht. apply tp_all_In in Ht. destruct Ht as [Lt It].
  cbn [fst snd]. rewrite fold_left_prod. f_equal. unfold termp. apply prodl_ext. intros d Hd. apply in_seq in Hd. apply Hb. apply It. lia.
Qed.
Lemma hess_pairs_pos d i j : (1 <= d <= 3)%nat -> (i < d)%nat -> (j < d)%nat -> nth (sym_pos d i j) (hess_pairs d) (O, O) = (Nat.min i j, Nat.max i j).
Proof.
  intros Hd Hi Hj. destruct d as [|[|[|[|d]]]]; try lia; destruct i as [|[|[|i]]]; try lia; destruct j as [|[|[|j]]]; try lia; reflexivity.
Qed.
Lemma hess_pairs_length d : (1 <= d <= 3)%nat -> length (hess_pairs d) = (d * (d + 1) / 2)%nat.
Proof. intros Hd. destruct d as [|[|[|[|d]]]]; try lia; reflexivity. Qed.
Lemma sym_pos_lt d i j : (1 <= d <= 3)%nat -> (i < d)%nat -> (j < d)%nat -> (sym_pos d i j < length (hess_pairs d))%nat.
Proof.
  intros Hd Hi Hj. destruct d as [|[|[|[|d]]]]; try lia; destruct i as [|[|[|i]]]; try lia; destruct j as [|[|[|j]]]; try lia; cbn; lia.
Qed.
Lemma hess_ders_bump d i j k : (k < d)%nat -> hess_ders (Nat.min i j, Nat.max i j) k = bump (bump (fun _ => O) i) j k.
Proof.
  intros Hk. unfold hess_ders, bump. cbn [fst snd]. destruct (Nat.le_ge_cases i j);
    [rewrite Nat.min_l, Nat.max_r by assumption|rewrite Nat.min_r, Nat.max_l by assumption]; destruct (Nat.eqb_spec k i), (Nat.eqb_spec k j); reflexivity.
Qed.
Lemma hessian_fE (f : fam) (bs : R -> nat -> nat -> list R) ev p x : good_fam f -> valid_poly p -> (length (p_order p) <= 3)%nat ->
  (forall e a n i, (i < n)%nat -> nth i (bs a n e) 0 = f e n i a) ->
  (forall q, length q = length (p_order p) -> ev q = fE f (p_order p) (p_coefs p) (fun _ => O) q) ->
  length x = length (p_order p) -> has_hessian (length (p_order p)) ev x (hessian_of bs p x).
Proof.
  intros Hf (Hne & _ & Hc) H3 Hb Hev Hx. set (k := length (p_order p)) in *. assert (Hk : (1 <= k <= 3)%nat) by (unfold k in *; destruct (p_order p); [congruence|simpl in *; lia]).
  split; [unfold hessian_of; rewrite map_length; apply hess_pairs_length; assumption|].
  exists (fun q => map (fun d => fE f (p_order p) (p_coefs p) (bump (fun _ => O) d) q) (seq 0 k)). split.
  - intros q Hq. apply (has_gradient_ext _ (fE f (p_order p) (p_coefs p) (fun _ => O))); [intros; symmetry; apply Hev; assumption|]. apply fE_gradient; assumption.
  - intros i Hi. apply (has_gradient_ext _ (fE f (p_order p) (p_coefs p) (bump (fun _ => O) i))); [intros q Hq; rewrite map_seq_nth' by assumption; reflexivity|].
    assert (HG := fE_gradient f (p_order p) (p_coefs p) (bump (fun _ => O) i) x Hf Hx). fold k in HG.
    replace (map (fun j => nth (sym_pos k i j) (hessian_of bs p x) 0) (seq 0 k)) with (map (fun d => fE f (p_order p) (p_coefs p) (bump (bump (fun _ => O) i) d) x) (seq 0 k)); [exact HG|].
    apply map_ext_in. intros j Hj. apply in_seq in Hj. unfold hessian_of. fold k.
    set (he := hess_entry (fun der dir => bs (nth dir x 0) (nth dir (p_order p) O) der) p).
    rewrite (nth_indep _ 0 (he (O, O))) by (rewrite map_length; apply sym_pos_lt; lia). rewrite (map_nth he), hess_pairs_pos by lia. unfold he.
    rewrite (hess_entry_fE f bs) by assumption. apply fE_ext. intros d Hd. symmetry. apply (hess_ders_bump k). assumption.
Qed.
Lemma bezier_hessian_ok p x : valid_poly p -> (length (p_order p) <= 3)%nat -> length x = length (p_order p) ->
  has_hessian (length (p_order p)) (bezier_eval p) x (bezier_hessian p x).
Proof.
  intros Hp H3 Hx. apply (hessian_fE fB); try assumption; [apply fB_good| |intros; apply bezier_eval_fE; assumption].
  intros e a n i Hi. rewrite bernstein_ders_DB, map_seq_nth' by assumption. reflexivity.
Qed.
Lemma mono_hessian_ok p x : valid_poly p -> (length (p_order p) <= 3)%nat -> length x = length (p_order p) ->
  has_hessian (length (p_order p)) (mono_eval p) x (mono_hessian p x).
Proof.
  intros Hp H3 Hx. apply (hessian_fE fM); try assumption; [apply fM_good| |intros; apply mono_eval_fE; assumption].
  intros e a n i Hi. apply monomial_basis_DM. assumption.
Qed.
