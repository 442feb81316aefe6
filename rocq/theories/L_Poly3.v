(** Closed forms of the evaluation algorithms. *)
From Coq Require Import Reals List Lia Lra Binomial.
From Coquelicot Require Import Coquelicot.
From Verif Require Import M_Poly S_Poly L_Real L_Point L_BBox L_TensorNat L_Poly L_Poly2.
Import ListNotations.
Local Close Scope Z_scope.
Local Open Scope R_scope.

Lemma map2_app {A B C} (f : A -> B -> C) l : forall l' m m', length l = length l' -> map2 f (l ++ m) (l' ++ m') = map2 f l l' ++ map2 f m m'.
Proof. induction l as [|a l IH]; intros [|b l'] m m' HL; try discriminate; [reflexivity|]. simpl. rewrite IH by (simpl in HL; lia). reflexivity. Qed.
Lemma tp_size_snoc o n : tp_size (o ++ [n]) = (tp_size o * n)%nat.
Proof. induction o as [|a o IH]; unfold tp_size in *; simpl; [lia|]. rewrite IH. lia. Qed.
Lemma vecs_snoc f o x n a : length x = length o -> vecs f (o ++ [n]) (x ++ [a]) = vecs f o x ++ [f a n].
Proof. intros H. unfold vecs. rewrite map2_app by (symmetry; assumption). reflexivity. Qed.
Lemma vecs_length f o x : length x = length o -> length (vecs f o x) = length o.
Proof. intros H. unfold vecs. apply map2_length. symmetry; assumption. Qed.
Lemma outer_vecs_length f o x : length x = length o -> (forall a n, length (f a n) = n) -> length (outer (vecs f o x)) = tp_size o.
Proof. intros H Hf. rewrite outer_length, vecs_lengths by assumption. reflexivity. Qed.

(** An evaluation that combines the values of the sub-polynomials with the weights [f x n]. *)
Section Eval.
Context (comb : R -> list R -> R) (f : R -> nat -> list R).
Context (ev : list nat -> list R -> list R -> R * list R).
Hypothesis Hf : forall a n, length (f a n) = n.
Hypothesis Hcomb : forall a b, (0 < length b)%nat -> comb a b = dot b (f a (length b)).
Hypothesis Hev_nil : forall c, ev [] [] c = (hd 0 c, tl c).
Hypothesis Hev_cons : forall n ro a rp c, ev (n :: ro) (a :: rp) c = let b := read_n (ev ro rp) n c in (comb a (fst b), snd b).
Lemma eval_outer ro : forall rp c, length rp = length ro -> Forall (fun n => (0 < n)%nat) ro -> (tp_size (rev ro) <= length c)%nat ->
  ev ro rp c = (dot (firstn (tp_size (rev ro)) c) (outer (vecs f (rev ro) (rev rp))), skipn (tp_size (rev ro)) c).
Proof.
  induction ro as [|n ro IH]; intros [|a rp] c HL Hp Hc; try discriminate.
  - rewrite Hev_nil. cbn in Hc |- *. destruct c as [|x c]; [cbn in Hc; lia|]. cbn. f_equal. ring.
  - cbn [rev] in *. rewrite tp_size_snoc in *. inversion Hp; subst. cbn [length] in HL.
    assert (HL' : length (rev rp) = length (rev ro)) by (rewrite !rev_length; lia).
    rewrite Hev_cons. cbv zeta.
    assert (Hs : forall c, (tp_size (rev ro) <= length c)%nat -> snd (ev ro rp c) = skipn (tp_size (rev ro)) c) by (intros c' Hc'; rewrite IH by (lia || assumption); reflexivity).
    assert (Hd : forall c, (tp_size (rev ro) <= length c)%nat -> fst (ev ro rp c) = dot (firstn (tp_size (rev ro)) c) (outer (vecs f (rev ro) (rev rp)))) by (intros c' Hc'; rewrite IH by (lia || assumption); reflexivity).
    rewrite (read_n_snd _ _ Hs) by assumption. f_equal.
    rewrite Hcomb by (rewrite read_n_length; lia). rewrite read_n_length.
    rewrite vecs_snoc by assumption. rewrite outer_snoc.
    assert (E := read_n_dot (ev ro rp) _ Hs (fun y => y) (outer (vecs f (rev ro) (rev rp))) (outer_vecs_length f _ _ HL' Hf) Hd (f a n) c).
    rewrite Hf in E. rewrite map_id in E. apply E. assumption.
Qed.
End Eval.

Lemma firstn_exact {A} n (l : list A) : length l = n -> firstn n l = l.
Proof. intros <-. apply firstn_all. Qed.
Lemma Forall_rev' {A} (P : A -> Prop) l : Forall P l -> Forall P (rev l).
Proof. intros H. rewrite Forall_forall in *. intros x Hx. apply H. apply in_rev. assumption. Qed.
Lemma bezier_eval_outer p x : valid_poly p -> length x = length (p_order p) ->
  bezier_eval p x = dot (p_coefs p) (outer (vecs bvec (p_order p) x)).
Proof.
  intros (Hne & Hp & Hc) Hx. unfold bezier_eval.
  rewrite (eval_outer (fun a b => hd 0 (cj_loop (lerp a) 0 b)) bvec casteljau).
  - rewrite !rev_involutive. cbn [fst]. rewrite firstn_exact by assumption. reflexivity.
  - apply bvec_length.
  - apply cj_loop_dot.
  - reflexivity.
  - reflexivity.
  - rewrite !rev_length. assumption.
  - apply Forall_rev'. assumption.
  - rewrite rev_involutive. lia.
Qed.

(** Horner *)
Definition mvec (x : R) (n : nat) : list R := map (fun i => x ^ i) (seq 0 n).
Lemma mvec_length x n : length (mvec x n) = n. Proof. unfold mvec. rewrite map_length, seq_length. reflexivity. Qed.
Lemma mvec_S x n : mvec x (S n) = 1 :: map (fun y => x * y) (mvec x n).
Proof. unfold mvec. simpl. f_equal. rewrite <- seq_shift, !map_map. reflexivity. Qed.
Lemma fold_horner x l : forall v, fold_left (mul_add x) (rev l) v = dot l (mvec x (length l)) + v * x ^ length l.
Proof.
  induction l as [|a l IH]; intros v; [simpl; ring|]. cbn [rev length]. rewrite fold_left_app, IH, mvec_S. cbn [fold_left dot]. rewrite dot_scal_r. unfold mul_add. simpl. ring.
Qed.
Lemma horner_loop_dot x b : (0 < length b)%nat -> horner_loop (mul_add x) 0 b = dot b (mvec x (length b)).
Proof.
  intros Hb. unfold horner_loop. destruct (exists_last (l := b)) as [l [a ->]]; [intros ->; simpl in Hb; lia|].
  rewrite rev_app_distr, last_last. cbn [rev app tl]. rewrite fold_horner. rewrite app_length. cbn [length]. rewrite Nat.add_1_r.
  unfold mvec. rewrite seq_S, map_app, dot_app by (rewrite map_length, seq_length; reflexivity). simpl. ring.
Qed.
Lemma mono_eval_outer p x : valid_poly p -> length x = length (p_order p) ->
  mono_eval p x = dot (p_coefs p) (outer (vecs mvec (p_order p) x)).
Proof.
  intros (Hne & Hp & Hc) Hx. unfold mono_eval.
  rewrite (eval_outer (fun a b => horner_loop (mul_add a) 0 b) mvec horner).
  - rewrite !rev_involutive. cbn [fst]. rewrite firstn_exact by assumption. reflexivity.
  - apply mvec_length.
  - apply horner_loop_dot.
  - reflexivity.
  - reflexivity.
  - rewrite !rev_length. assumption.
  - apply Forall_rev'. assumption.
  - rewrite rev_involutive. lia.
Qed.

(** ** Value and derivatives *)
Definition comps (V V' : list (list R)) : list (list (list R)) := V :: map (fun d => set_at V d (nth d V' [])) (seq 0 (length V)).
Lemma set_at_app_l {A} (l m : list A) k v : (k < length l)%nat -> set_at (l ++ m) k v = set_at l k v ++ m.
Proof. revert k. induction l as [|a l IH]; intros [|k] Hk; simpl in *; try lia; auto. rewrite IH by lia. reflexivity. Qed.
Lemma set_at_last {A} (l : list A) a v : set_at (l ++ [a]) (length l) v = l ++ [v].
Proof. induction l as [|b l IH]; simpl; [reflexivity|]. rewrite IH. reflexivity. Qed.
Lemma comps_snoc V V' b b' : length V = length V' -> comps (V ++ [b]) (V' ++ [b']) = map (fun vs => vs ++ [b]) (comps V V') ++ [V ++ [b']].
Proof.
  intros HL. unfold comps. cbn [map app]. f_equal. rewrite app_length. cbn [length]. rewrite Nat.add_1_r, seq_S, !map_app, map_map. f_equal.
  - apply map_ext_in. intros d Hd. apply in_seq in Hd. rewrite set_at_app_l by lia. rewrite app_nth1 by lia. reflexivity.
  - cbn [map Nat.add]. rewrite set_at_last, app_nth2, HL, Nat.sub_diag by lia. reflexivity.
Qed.
Lemma comps_length V V' : length (comps V V') = S (length V).
Proof. unfold comps. cbn [length]. rewrite map_length, seq_length. reflexivity. Qed.
Lemma comps_len V V' vs : length V = length V' -> (forall k, (k < length V)%nat -> length (nth k V' []) = length (nth k V [])) ->
  In vs (comps V V') -> map (@length R) vs = map (@length R) V.
Proof.
  intros HL Hk [<- | Hin]; [reflexivity|]. apply in_map_iff in Hin. destruct Hin as [d [<- Hd]]. apply in_seq in Hd.
  apply nth_ext with (d := O) (d' := O); [rewrite !map_length, set_at_len; reflexivity|].
  intros k Hkl. rewrite map_length, set_at_len in Hkl.
  change O with (length (@nil R)) at 1 2. rewrite (map_nth (@length R) V), (map_nth (@length R) (set_at V d _)), nth_set_at. destruct (Nat.eq_dec k d) as [-> | _]; [|reflexivity]. destruct (lt_dec d (length V)); [|lia]. apply Hk. lia.
Qed.

Section EvalDer.
Context (f f' : R -> nat -> list R).
Context (ok : nat -> Prop).
Context (vcomb : R -> list (list R) -> list R) (dcomb : R -> list R -> R).
Context (ev : list nat -> list R -> list R -> list R * list R).
Hypothesis Hf : forall a n, length (f a n) = n.
Hypothesis Hf' : forall a n, length (f' a n) = n.
Hypothesis Hv : forall a beta q, ok (length beta) -> Forall (fun v => length v = q) beta -> length (vcomb a beta) = q /\
  forall c, (c < q)%nat -> nth c (vcomb a beta) 0 = dot (map (fun v => nth c v 0) beta) (f a (length beta)).
Hypothesis Hd : forall a b, ok (length b) -> dcomb a b = dot b (f' a (length b)).
Hypothesis Hev_nil : forall c, ev [] [] c = ([hd 0 c], tl c).
Hypothesis Hev_cons : forall n ro a rp c, ok n -> ev (n :: ro) (a :: rp) c = let b := read_n (ev ro rp) n c in (vcomb a (fst b) ++ [dcomb a (map (hd 0) (fst b))], snd b).
Lemma eval_der_outer ro : forall rp c, length rp = length ro -> Forall ok ro -> (tp_size (rev ro) <= length c)%nat ->
  ev ro rp c = (map (fun vs => dot (firstn (tp_size (rev ro)) c) (outer vs)) (comps (vecs f (rev ro) (rev rp)) (vecs f' (rev ro) (rev rp))), skipn (tp_size (rev ro)) c).
Proof.
  induction ro as [|n ro IH]; intros [|a rp] c HL Hp Hc; try discriminate.
  - rewrite Hev_nil. cbn in Hc |- *. destruct c as [|x c]; [cbn in Hc; lia|]. cbn. f_equal. f_equal. ring.
  - cbn [rev] in *. rewrite tp_size_snoc in *. inversion Hp; subst. cbn [length] in HL.
    assert (HL' : length (rev rp) = length (rev ro)) by (rewrite !rev_length; lia).
    rewrite Hev_cons by assumption. cbv zeta. set (m := tp_size (rev ro)) in *. set (V := vecs f (rev ro) (rev rp)) in *. set (V' := vecs f' (rev ro) (rev rp)) in *.
    assert (LV : length V = length V') by (unfold V, V'; rewrite !vecs_length by assumption; reflexivity).
    assert (Hs : forall c, (m <= length c)%nat -> snd (ev ro rp c) = skipn m c) by (intros c' Hc'; rewrite IH by (lia || assumption); reflexivity).
    assert (Hr : forall c, (m <= length c)%nat -> fst (ev ro rp c) = map (fun vs => dot (firstn m c) (outer vs)) (comps V V')) by (intros c' Hc'; rewrite IH by (lia || assumption); reflexivity).
    assert (Hlen : forall vs, In vs (comps V V') -> length (outer vs) = m).
    { intros vs Hin. rewrite outer_length, (comps_len V V' vs LV) by (try assumption; intros k Hk;
        unfold V, V', vecs in *; rewrite map2_length in Hk by congruence;
        rewrite (map2_nth _ (rev ro) (rev rp) k O 0 []) by (congruence || lia); rewrite (map2_nth _ (rev ro) (rev rp) k O 0 []) by (congruence || lia); rewrite Hf, Hf'; reflexivity).
      unfold V. rewrite vecs_lengths by assumption. reflexivity. }
    rewrite (read_n_snd _ _ Hs) by assumption. f_equal.
    assert (Hq : Forall (fun v => length v = S (length V)) (fst (read_n (ev ro rp) n c))).
    { apply (read_n_forall _ m Hs); [|assumption]. intros c' Hc'. rewrite Hr by assumption. rewrite map_length, comps_length. reflexivity. }
    assert (Hcomp : forall k b, (k < S (length V))%nat -> length b = n ->
       dot (map (fun v => nth k v 0) (fst (read_n (ev ro rp) n c))) b = dot (firstn (m * n) c) (flat_map (fun y => map (fun w => w * y) (outer (nth k (comps V V') []))) b)).
    { intros k b Hk <-. apply (read_n_dot (ev ro rp) m Hs (fun v => nth k v 0)); [apply Hlen, nth_In; rewrite comps_length; assumption| |assumption].
      intros c' Hc'. rewrite Hr by assumption.
      rewrite (nth_indep _ 0 (dot (firstn m c') (outer []))) by (rewrite map_length, comps_length; assumption).
      rewrite (map_nth (fun vs => dot (firstn m c') (outer vs))). reflexivity. }
    unfold V, V'. rewrite !vecs_snoc by assumption. fold V V'. rewrite comps_snoc by assumption. rewrite map_app, map_map. cbn [map]. f_equal.
    + destruct (Hv a (fst (read_n (ev ro rp) n c)) (S (length V))) as [HvL HvN]; [rewrite read_n_length; assumption|assumption|].
      apply nth_ext with (d := 0) (d' := dot (firstn (m * n) c) (outer ([] ++ [f a n]))); [rewrite map_length, comps_length; assumption|].
      intros k Hk. rewrite HvL in Hk. rewrite HvN by assumption. rewrite read_n_length. rewrite Hcomp by (auto; lia).
      rewrite (map_nth (fun vs => dot (firstn (m * n) c) (outer (vs ++ [f a n])))). rewrite outer_snoc. reflexivity.
    + f_equal. rewrite Hd by (rewrite map_length, read_n_length; assumption). rewrite map_length, read_n_length.
      rewrite (map_ext_in (hd 0) (fun v => nth 0 v 0)) by (intros; apply hd_nth0). rewrite (Hcomp O) by (auto; lia).
      rewrite outer_snoc. reflexivity.
Qed.
End EvalDer.

(** gamma is the derivative *)
Definition dB (p i : nat) (x : R) : R :=
  match p with O => 0 | S p' => INR p * ((match i with O => 0 | S i' => B p' i' x end) - B p' i x) end.
Lemma dB_raise p i x : (0 < p)%nat -> (i <= p)%nat ->
  dB p i x = INR (S p - i) * (match i with O => 0 | S i' => B p i' x end) + (2 * INR i - INR p) * B p i x - INR (S i) * B p (S i) x.
Proof.
  intros Hp Hi. destruct p as [|p]; [lia|]. cbn [dB]. rewrite Rmult_minus_distr_l. destruct (Nat.eq_dec i (S p)) as [-> | Hn].
  - rewrite (B_gt p (S p)), (B_gt (S p) (S (S p))) by lia. rewrite B_raise by lia. replace (S p - p)%nat with 1%nat by lia. replace (S (S p) - S p)%nat with 1%nat by lia. ring.
  - rewrite (B_raise p i) by lia. destruct i as [|i].
    + rewrite !Nat.sub_0_r. simpl (INR 0). ring.
    + rewrite B_raise by lia. rewrite !minus_INR by lia. rewrite !S_INR. ring.
Qed.
Definition dbvec (x : R) (n : nat) : list R := map (fun i => dB (n - 1) i x) (seq 0 n).
Lemma dbvec_length x n : length (dbvec x n) = n. Proof. unfold dbvec. rewrite map_length, seq_length. reflexivity. Qed.
Lemma gamma_loop_dot W b k : forall g, (k < length b)%nat -> (1 <= k)%nat -> length g = length b -> length W = length b ->
  length (fold_left (fun g i => add_at (add_at (add_at g (i - 1) (INR (length b - i) * nth i b 0)) i ((2 * INR i - INR (length b - 1)) * nth i b 0)) (S i) (- (INR (S i) * nth i b 0))) (seq 1 (k - 1)) g) = length b /\
  dot (fold_left (fun g i => add_at (add_at (add_at g (i - 1) (INR (length b - i) * nth i b 0)) i ((2 * INR i - INR (length b - 1)) * nth i b 0)) (S i) (- (INR (S i) * nth i b 0))) (seq 1 (k - 1)) g) W
  = dot g W + bigsum (k - 1) (fun j => let i := S j in nth i b 0 * (INR (length b - i) * nth (i - 1) W 0 + (2 * INR i - INR (length b - 1)) * nth i W 0 - INR (S i) * nth (S i) W 0)).
Proof.
  intros g Hk H1 Hg HW. replace k with (S (k - 1)) in Hk by lia. induction (k - 1)%nat as [|j IH]; [split; [exact Hg|rewrite bigsum_0; simpl; ring]|].
  destruct IH as [IL ID]; [lia|]. rewrite seq_S, fold_left_app. cbn [fold_left Nat.add]. split; [rewrite !add_at_length; exact IL|].
  rewrite !dot_add_at by (rewrite ?add_at_length; lia). rewrite ID, bigsum_S. cbv zeta. cbn [Nat.sub]. rewrite Nat.sub_0_r. ring.
Qed.
Lemma nth_repeat0 n k : nth k (repeat 0 n) 0 = 0.
Proof. revert k. induction n as [|n IH]; intros [|k]; simpl; auto. Qed.
Lemma last_nth {A} (l : list A) d : last l d = nth (length l - 1) l d.
Proof. induction l as [|a l IH]; [reflexivity|]. destruct l as [|b l]; [reflexivity|]. change (last (a :: b :: l) d) with (last (b :: l) d). rewrite IH. simpl length. replace (S (S (length l)) - 1)%nat with (S (length l)) by lia. replace (S (length l) - 1)%nat with (length l) by lia. reflexivity. Qed.
Lemma bezier_gamma_dot b x : (1 < length b)%nat ->
  length (bezier_gamma b) = length b /\ dot (bezier_gamma b) (bvec x (length b)) = dot b (dbvec x (length b)).
Proof.
  intros Hn. set (n := length b) in *. set (W := bvec x n). assert (HW : length W = n) by apply bvec_length.
  set (g1 := set_at (set_at (repeat 0 n) 0 (- INR (n - 1) * nth 0 b 0)) 1 (- nth 0 b 0)).
  assert (Lg1 : length g1 = n) by (unfold g1; rewrite !set_at_len, repeat_length; reflexivity).
  assert (Dg1 : dot g1 W = - INR (n - 1) * nth 0 b 0 * nth 0 W 0 - nth 0 b 0 * nth 1 W 0).
  { unfold g1. rewrite !dot_set_at by (rewrite ?set_at_len, ?repeat_length; lia). rewrite dot_repeat0, nth_set_at, !nth_repeat0.
    destruct (Nat.eq_dec 1 0); [lia|]. ring. }
  destruct (gamma_loop_dot W b (n - 1) g1) as [IL ID]; try (fold n; lia).
  fold n in IL, ID. unfold bezier_gamma. fold n. cbv zeta. fold g1.
  split; [rewrite !add_at_length; exact IL|].
  rewrite !dot_add_at by (rewrite ?add_at_length; lia). rewrite ID, Dg1. clear IL ID Dg1 Lg1 g1.
  assert (HWn : forall i, (i < n)%nat -> nth i W 0 = B (n - 1) i x) by (intros; apply bvec_nth; assumption).
  rewrite last_nth. fold n.
  assert (RHS : dot b (dbvec x n) = nth 0 b 0 * dB (n - 1) 0 x + bigsum (n - 2) (fun i => nth (S i) b 0 * dB (n - 1) (S i) x) + nth (n - 1) b 0 * dB (n - 1) (n - 1) x).
  { unfold dbvec. set (h := fun i => dB (n - 1) i x). unfold n. rewrite dot_map_seq. fold n. replace n with (S (S (n - 2))) at 1 by lia.
    rewrite bigsum_S, bigsum_S_l. replace (S (n - 2)) with (n - 1)%nat by lia. reflexivity. }
  rewrite RHS. clear RHS.
  rewrite (bigsum_ext (n - 1 - 1) _ (fun i => nth (S i) b 0 * dB (n - 1) (S i) x)).
  2:{ intros i Hi. cbv zeta. rewrite dB_raise by lia. rewrite !HWn by lia. replace (S i - 1)%nat with i by lia. replace (S (n - 1) - S i)%nat with (n - S i)%nat by lia. reflexivity. }
  replace (n - 1 - 1)%nat with (n - 2)%nat by lia.
  rewrite (dB_raise (n - 1) 0), (dB_raise (n - 1) (n - 1)) by lia. rewrite !HWn by lia.
  replace (n - 1)%nat with (S (n - 2)) by lia. rewrite (B_gt (S (n - 2)) (S (S (n - 2)))) by lia. rewrite Nat.sub_0_r. replace (S (S (n - 2)) - S (n - 2))%nat with 1%nat by lia.
  rewrite !S_INR. simpl (INR 0). ring.
Qed.
Lemma bezier_grad_outer p x : valid_poly p -> length x = length (p_order p) ->
  bezier_grad p x = map (fun d => dot (p_coefs p) (outer (set_at (vecs bvec (p_order p) x) d (nth d (vecs dbvec (p_order p) x) [])))) (seq 0 (length (p_order p))).
Proof.
  intros (Hne & Hp & Hc) Hx. unfold bezier_grad.
  rewrite (eval_der_outer bvec dbvec (fun n => (0 < n)%nat)
    (fun a beta => if (1 <? length beta)%nat then hd [] (cj_loop (vlerp a) [] beta) else hd [] beta)
    (fun a b => if (1 <? length b)%nat then hd 0 (cj_loop (lerp a) 0 (bezier_gamma b)) else hd 0 (repeat 0 (length b))) casteljau_der).
  - rewrite !rev_involutive. cbn [fst]. rewrite firstn_exact by assumption. unfold comps. cbn [map tl]. rewrite map_map.
    rewrite vecs_length by assumption. reflexivity.
  - apply bvec_length.
  - apply dbvec_length.
  - intros a beta q Hb Hq. destruct (Nat.ltb_spec 1 (length beta)); [apply cj_loop_vec; assumption|].
    destruct beta as [|v [|w beta]]; simpl in *; try lia. inversion Hq; subst. split; [reflexivity|]. intros c _. unfold bvec. simpl. rewrite B_00. ring.
  - intros a b Hb. destruct (Nat.ltb_spec 1 (length b)).
    + destruct (bezier_gamma_dot b a) as [GL GD]; [assumption|]. rewrite cj_loop_dot by lia. rewrite GL. exact GD.
    + destruct b as [|v [|w b]]; simpl in *; try lia. ring.
  - reflexivity.
  - intros n ro a rp c Hn. cbn [casteljau_der]. rewrite map_length, read_n_length. destruct (1 <? n)%nat; reflexivity.
  - rewrite !rev_length. assumption.
  - apply Forall_rev'. assumption.
  - rewrite rev_involutive. lia.
Qed.
