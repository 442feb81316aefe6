(** Facets and derivatives of polynomials. *)
From Coq Require Import Reals List Lia Lra Binomial ZArith.
From Coquelicot Require Import Coquelicot.
From Verif Require Import M_Poly S_Poly S_Affine L_Real L_Point L_BBox L_TensorNat L_Poly L_Poly2 L_Poly3 L_Poly4 L_Poly5 L_Poly6 L_Poly7.
Import ListNotations.
Local Close Scope Z_scope.
Local Open Scope R_scope.

Definition tins {A} (d : nat) (v : A) (t : list A) : list A := firstn d t ++ v :: skipn d t.
Definition gterm (f : fam) (o : list nat) (x : list R) : list nat -> R := termp (fun d i => f O (nth d o O) i (nth d x 0)) (length o).
Lemma gterm_cons f n o a x i t : gterm f (n :: o) (a :: x) (i :: t) = f O n i a * gterm f o x t.
Proof. unfold gterm. cbn [length]. rewrite termp_S. reflexivity. Qed.
Lemma gterm_ins f d : forall o a y i t, (d < length o)%nat -> length y = (length o - 1)%nat -> length t = (length o - 1)%nat ->
  gterm f o (tins d a y) (tins d i t) = f O (nth d o O) i a * gterm f (remove_component d o) y t.
Proof.
  induction d as [|d IH]; intros [|n o] a y i t Hd Hy Ht; cbn [length] in *; try lia.
  - unfold tins. cbn [firstn skipn app nth remove_component]. apply gterm_cons.
  - destruct y as [|b y]; [cbn [length] in *; lia|]. destruct t as [|j t]; [cbn [length] in *; lia|]. cbn [length] in *.
    assert (E : forall A (v w : A) l, tins (S d) v (w :: l) = w :: tins d v l) by reflexivity. rewrite !E. cbn [remove_component nth]. rewrite !gterm_cons, IH by lia. ring.
Qed.
Lemma tins_length {A} d (v : A) t : (d <= length t)%nat -> length (tins d v t) = S (length t).
Proof. intros H. unfold tins. rewrite app_length. cbn [length]. rewrite firstn_length, skipn_length. lia. Qed.
Lemma rsum_fubini d : forall o (g : list nat -> R), (d < length o)%nat ->
  rsum (map g (tp_all o)) = rsum (map (fun t => rsum (map (fun i => g (tins d i t)) (seq 0 (nth d o O)))) (tp_all (remove_component d o))).
Proof.
  induction d as [|d IH]; intros [|n o] g Hd; cbn [length] in *; try lia.
  - rewrite tp_all_cons, rsum_flat_map. cbn [remove_component nth]. apply rsum_ext. intros t _. rewrite map_map. reflexivity.
  - cbn [remove_component nth]. rewrite !tp_all_cons, !rsum_flat_map. rewrite IH by lia. apply rsum_ext. intros t _. rewrite map_map.
    rewrite (rsum_ext _ (fun j => rsum (map (fun i => g (i :: tins d j t)) (seq 0 n)))) by (intros; rewrite map_map; reflexivity).
    rewrite rsum_swap. apply rsum_ext. intros i _. apply rsum_ext. intros j _. reflexivity.
Qed.
Lemma set_at_const_nth d : forall k v, (d < k)%nat -> set_at (tp_const k 0) d v = repeat 0%nat d ++ v :: repeat 0%nat (k - S d).
Proof.
  induction d as [|d IH]; intros k v Hd; (destruct k as [|k]; [lia|]); unfold tp_const in *; cbn [repeat set_at app].
  - rewrite Nat.sub_succ, Nat.sub_0_r. reflexivity.
  - rewrite Nat.sub_succ, IH by lia. reflexivity.
Qed.
(** The slice of indices with a fixed component. *)
Lemma tp_slice d : forall o v, (d < length o)%nat ->
  tp_range (set_at (tp_const (length o) 0) d v) (set_at o d (S v)) = map (tins d v) (tp_all (remove_component d o)).
Proof.
  induction d as [|d IH]; intros [|n o] v Hd; cbn [length] in *; try lia.
  - unfold tp_const. cbn [repeat set_at tp_range remove_component]. rewrite Nat.sub_succ_l, Nat.sub_diag by lia. cbn [seq map].
    unfold tp_all, tp_const. clear. induction (tp_range (repeat 0%nat (length o)) o) as [|t l IH]; [reflexivity|]. cbn [flat_map map app]. rewrite IH. reflexivity.
  - unfold tp_const in *. cbn [repeat set_at tp_range remove_component]. rewrite IH by lia. rewrite tp_all_cons, map_flat_map, Nat.sub_0_r, flat_map_map.
    apply flat_map_ext_in. intros t _. rewrite map_map. reflexivity.
Qed.
Lemma set_at_same {A} (l : list A) d v dd : nth d l dd = v -> (d < length l)%nat -> set_at l d v = l.
Proof. revert d. induction l as [|a l IH]; intros [|d] H Hd; cbn in *; try lia; [congruence|]. rewrite IH by (assumption || lia). reflexivity. Qed.
Lemma rsum_pick {n} (f : nat -> R) v : (v < n)%nat -> rsum (map (fun i => f i * (if Nat.eqb i v then 1 else 0)) (seq 0 n)) = f v.
Proof.
  intros H. fold (bigsum n (fun i => f i * (if Nat.eqb i v then 1 else 0))). rewrite (bigsum_single n _ v H).
  - rewrite Nat.eqb_refl. ring.
  - intros i _ Hi. destruct (Nat.eqb_spec i v); [contradiction|ring].
Qed.
Lemma remove_length {A} (l : list A) : forall k, (k < length l)%nat -> length (remove_component k l) = (length l - 1)%nat.
Proof. induction l as [|a l IH]; intros [|k] H; cbn in *; try lia. rewrite IH by lia. lia. Qed.
Lemma remove_in {A} (l : list A) : forall k x, In x (remove_component k l) -> In x l.
Proof. induction l as [|a l IH]; intros [|k] x H; cbn in *; auto. destruct H as [->|H]; [left; reflexivity|right; eapply IH; eassumption]. Qed.
Definition facet_fix (o : list nat) (d : nat) (side : Z) : nat := if (side =? 0)%Z then O else (nth d o O - 1)%nat.
Lemma extract_facet_generic p f : valid_poly p -> (2 <= length (p_order p))%nat -> (0 <= f < Z.of_nat (length (p_order p)) * 2)%Z ->
  let d := Z.to_nat (f / 2) in let v := facet_fix (p_order p) d (f mod 2) in
  exists q, extract_facet p f = Ret q /\ valid_poly q /\ p_order q = remove_component d (p_order p) /\ (d < length (p_order p))%nat /\ (v < nth d (p_order p) O)%nat /\
    forall fm a y, length y = (length (p_order p) - 1)%nat -> (forall i, (i < nth d (p_order p) O)%nat -> fm O (nth d (p_order p) O) i a = if Nat.eqb i v then 1 else 0) ->
      tsum (p_order p) (p_coefs p) (gterm fm (p_order p) (tins d a y)) = tsum (p_order q) (p_coefs q) (gterm fm (p_order q) y).
Proof.
  intros Hp H2 Hf d v. assert (Hp' := Hp). destruct Hp' as (Hne & Hpos & Hc). set (o := p_order p) in *. set (k := length o) in *.
  assert (Hd : (d < k)%nat) by (unfold d; apply Nat2Z.inj_lt; rewrite Z2Nat.id by (apply Z.div_pos; lia); apply Z.div_lt_upper_bound; lia).
  assert (Hnd : (0 < nth d o O)%nat) by (rewrite Forall_forall in Hpos; apply Hpos, nth_In; assumption).
  assert (Hv : (v < nth d o O)%nat) by (unfold v, facet_fix; destruct (f mod 2 =? 0)%Z; lia).
  set (o' := remove_component d o).
  assert (Lo' : length o' = (k - 1)%nat) by (apply remove_length; assumption).
  set (cs := map (fun t => nth (tp_flat o t) (p_coefs p) 0) (map (tins d v) (tp_all o'))).
  destruct (make_poly_ok o' cs) as [Mk Vq].
  { destruct o'; [cbn in Lo'; lia|discriminate]. }
  { rewrite Forall_forall in *. intros n Hn. apply Hpos. eapply remove_in; eassumption. }
  { unfold cs. rewrite !map_length, tp_all_length. reflexivity. }
  exists (mk_poly o' cs). split; [|split; [exact Vq|split; [reflexivity|split; [exact Hd|split; [exact Hv|]]]]].
  - unfold extract_facet. fold o k. unfold facet_const_dir, facet_side, assert_.
    replace ((0 <=? f)%Z && (f <? Z.of_nat k * 2)%Z)%bool with true by (symmetry; apply andb_true_intro; split; [apply Z.leb_le|apply Z.ltb_lt]; lia).
    cbn [bind]. fold d. rewrite <- Mk. f_equal. unfold cs. f_equal. unfold v, facet_fix, o' in *. destruct (f mod 2 =? 0)%Z.
    + rewrite <- (tp_slice d o 0) by assumption. fold k. f_equal. symmetry. apply (set_at_same _ _ _ O); [unfold tp_const; rewrite repeat_nth_lt by assumption; reflexivity|unfold tp_const; rewrite repeat_length; assumption].
    + rewrite <- (tp_slice d o (nth d o O - 1)) by assumption. fold k. f_equal. symmetry. apply (set_at_same _ _ _ O); [lia|assumption].
  - intros fm a y Hy Hfm. cbn [p_order p_coefs]. unfold tsum at 1. rewrite (rsum_fubini d) by assumption. fold o'. unfold tsum. apply rsum_ext. intros t Ht.
    assert (Ht' := Ht). apply tp_all_In in Ht'. destruct Ht' as [Lt _].
    rewrite (rsum_ext _ (fun i => (nth (tp_flat o (tins d i t)) (p_coefs p) 0 * gterm fm o' y t) * (if Nat.eqb i v then 1 else 0))).
    + rewrite (rsum_pick _ v Hv). f_equal. unfold cs. rewrite map_map. rewrite coef_map by assumption. reflexivity.
    + intros i Hi. apply in_seq in Hi. rewrite gterm_ins by (lia || (fold k; lia)). fold o'. rewrite Hfm by lia. ring.
Qed.
Lemma B_at_0 n i : B n i 0 = if Nat.eqb i 0 then 1 else 0.
Proof. unfold B. destruct i as [|i]; cbn [Nat.eqb]; [rewrite binom_0; rewrite Rminus_0_r, pow1; ring|]. rewrite pow_i by lia. ring. Qed.
Lemma B_at_1 n i : (i <= n)%nat -> B n i 1 = if Nat.eqb i n then 1 else 0.
Proof.
  intros H. unfold B. rewrite pow1. replace (1 - 1) with 0 by ring. destruct (Nat.eqb_spec i n) as [-> | Hn].
  - rewrite Nat.sub_diag. rewrite binom_C, C_n_n by lia. simpl. ring.
  - rewrite (pow_i (n - i)) by lia. ring.
Qed.
Lemma tins_insert d a y : tins d a y = insert_at d a y. Proof. reflexivity. Qed.
Lemma insert_length d a y : (d <= length y)%nat -> length (insert_at d a y) = S (length y).
Proof. intros. rewrite <- tins_insert. apply tins_length. assumption. Qed.
Lemma bezier_facet_ok p f : valid_poly p -> (2 <= length (p_order p))%nat -> (0 <= f < Z.of_nat (length (p_order p)) * 2)%Z ->
  exists q, extract_facet p f = Ret q /\ valid_poly q /\ length (p_order q) = (length (p_order p) - 1)%nat /\
    forall y, length y = (length (p_order p) - 1)%nat -> bezier_eval q y = bezier_eval p (insert_at (Z.to_nat (f / 2)) (IZR (f mod 2)) y).
Proof.
  intros Hp H2 Hf. destruct (extract_facet_generic p f Hp H2 Hf) as [q (E & V & Oq & Hd & Hv & Ev)]. exists q.
  assert (Lq : length (p_order q) = (length (p_order p) - 1)%nat) by (rewrite Oq; apply remove_length; assumption).
  split; [exact E|split; [exact V|split; [exact Lq|]]]. intros y Hy.
  rewrite !bezier_eval_fE by (try assumption; rewrite ?insert_length; lia).
  symmetry. rewrite <- tins_insert. apply (Ev fB (IZR (f mod 2)) y Hy). intros i Hi. unfold fB. cbn [DB]. unfold facet_fix.
  assert (Hm : (f mod 2 = 0 \/ f mod 2 = 1)%Z) by (assert (0 <= f mod 2 < 2)%Z by (apply Z.mod_pos_bound; lia); lia). destruct Hm as [-> | ->].
  - cbn [Z.eqb]. apply B_at_0.
  - cbn [Z.eqb]. change (IZR 1) with 1. apply B_at_1. lia.
Qed.
Lemma mono_facet_ok p f : valid_poly p -> (2 <= length (p_order p))%nat -> (0 <= f < Z.of_nat (length (p_order p)) * 2)%Z ->
  exists q, extract_facet p f = Ret q /\ valid_poly q /\ length (p_order q) = (length (p_order p) - 1)%nat /\
    forall y, length y = (length (p_order p) - 1)%nat -> (f mod 2 = 0)%Z \/ nth (Z.to_nat (f / 2)) (p_order p) O = 1%nat ->
      mono_eval q y = mono_eval p (insert_at (Z.to_nat (f / 2)) (IZR (f mod 2)) y).
Proof.
  intros Hp H2 Hf. destruct (extract_facet_generic p f Hp H2 Hf) as [q (E & V & Oq & Hd & Hv & Ev)]. exists q.
  assert (Lq : length (p_order q) = (length (p_order p) - 1)%nat) by (rewrite Oq; apply remove_length; assumption).
  split; [exact E|split; [exact V|split; [exact Lq|]]]. intros y Hy Hs.
  rewrite !mono_eval_fE by (try assumption; rewrite ?insert_length; lia).
  symmetry. rewrite <- tins_insert. apply (Ev fM (IZR (f mod 2)) y Hy). intros i Hi. unfold fM, DM, falling. cbn [seq fold_left Nat.ltb Nat.leb]. rewrite Nat.sub_0_r. unfold facet_fix.
  destruct Hs as [Hs | H1].
  - rewrite Hs. cbn [Z.eqb]. destruct i as [|i]; [simpl; ring|]. rewrite pow_i by lia. cbn [Nat.eqb]. ring.
  - rewrite H1 in *. assert (i = O) by lia. subst i. destruct (f mod 2 =? 0)%Z; simpl; ring.
Qed.

(** ** derivative *)
Lemma remove_set {A} (l : list A) : forall d v, remove_component d (set_at l d v) = remove_component d l.
Proof. induction l as [|a l IH]; intros [|d] v; cbn; auto. rewrite IH. reflexivity. Qed.
Lemma tins_set {A} d : forall (v w : A) t, (d <= length t)%nat -> set_at (tins d v t) d w = tins d w t.
Proof. induction d as [|d IH]; intros v w t H; [reflexivity|]. destruct t as [|a t]; [cbn in H; lia|]. unfold tins in *. cbn [firstn skipn app set_at]. rewrite IH by (cbn in H; lia). reflexivity. Qed.
Lemma tins_nth {A} d : forall (v dd : A) t, (d <= length t)%nat -> nth d (tins d v t) dd = v.
Proof. induction d as [|d IH]; intros v dd t H; [reflexivity|]. destruct t as [|a t]; [cbn in H; lia|]. unfold tins in *. cbn [firstn skipn app nth]. apply IH. cbn in H; lia. Qed.
Lemma tins_remove {A} (l : list A) dd : forall d, (d < length l)%nat -> l = tins d (nth d l dd) (remove_component d l).
Proof. induction l as [|a l IH]; intros [|d] H; cbn in *; try lia; [reflexivity|]. unfold tins in *. cbn [firstn skipn app]. f_equal. apply IH. lia. Qed.
Lemma tins_all d o i t : (d < length o)%nat -> In t (tp_all (remove_component d o)) -> (i < nth d o O)%nat -> In (tins d i t) (tp_all o).
Proof.
  revert o t. induction d as [|d IH]; intros [|n o] t Hd Ht Hi; cbn [length] in *; try lia.
  - cbn [remove_component nth] in *. rewrite tp_all_cons. apply in_flat_map. exists t. split; [assumption|]. apply in_map_iff. exists i. split; [reflexivity|]. apply in_seq. lia.
  - cbn [remove_component nth] in *. rewrite tp_all_cons in *. apply in_flat_map in Ht. destruct Ht as [r [Hr Hj]]. apply in_map_iff in Hj. destruct Hj as [j [<- Hj]].
    apply in_flat_map. exists (tins d i r). split; [apply IH; (lia || assumption)|]. apply in_map_iff. exists j. split; [reflexivity|assumption].
Qed.
(** the term with one direction differentiated *)
Lemma dterm_ins f d : forall o a y i t, (d < length o)%nat -> length y = (length o - 1)%nat -> length t = (length o - 1)%nat ->
  termp (fun k j => f (bump (fun _ => O) d k) (nth k o O) j (nth k (tins d a y) 0)) (length o) (tins d i t) = f 1%nat (nth d o O) i a * gterm f (remove_component d o) y t.
Proof.
  induction d as [|d IH]; intros [|n o] a y i t Hd Hy Ht; cbn [length] in *; try lia.
  - unfold tins. cbn [firstn skipn app remove_component]. rewrite termp_S. cbn [nth]. unfold bump at 1. cbn [Nat.eqb]. f_equal. 
  - destruct y as [|b y]; [cbn [length] in *; lia|]. destruct t as [|j t]; [cbn [length] in *; lia|]. cbn [length] in *.
    assert (E : forall A (v w : A) l, tins (S d) v (w :: l) = w :: tins d v l) by reflexivity. rewrite !E. cbn [remove_component nth]. rewrite termp_S, gterm_cons. cbn [nth]. unfold bump at 1. cbn [Nat.eqb].
    specialize (IH o a y i t ltac:(lia) ltac:(lia) ltac:(lia)).
    replace (termp (fun d0 j0 => f (bump (fun _ => O) (S d) (S d0)) (nth d0 o O) j0 (nth d0 (tins d a y) 0)) (length o) (tins d i t)) with (f 1%nat (nth d o O) i a * gterm f (remove_component d o) y t).
    ring.
Qed.
Lemma create_derivative_ok p dir : valid_poly p -> (dir < length (p_order p))%nat -> (2 <= nth dir (p_order p) O)%nat ->
  exists q, create_derivative p dir = Ret q /\ valid_poly q /\ p_order q = set_at (p_order p) dir (nth dir (p_order p) O - 1)%nat /\
    forall x, length x = length (p_order p) -> mono_eval q x = fE fM (p_order p) (p_coefs p) (bump (fun _ => O) dir) x.
Proof.
  intros Hp Hd H2. assert (Hp' := Hp). destruct Hp' as (Hne & Hpos & Hc). set (o := p_order p) in *. set (k := length o) in *. set (new := set_at o dir (nth dir o O - 1)%nat).
  assert (Ln : length new = k) by apply set_at_len.
  assert (Nn : nth dir new O = (nth dir o O - 1)%nat) by (unfold new; rewrite nth_set_at; destruct (Nat.eq_dec dir dir); [|congruence]; destruct (lt_dec dir (length o)); [reflexivity|unfold k in *; lia]).
  set (h := fun t : list nat => let t1 := set_at t dir (S (nth dir t O)) in INR (nth dir t1 O) * nth (tp_flat o t1) (p_coefs p) 0).
  destruct (make_poly_ok new (map h (tp_all new))) as [Mk V].
  { destruct new; [destruct o; [congruence|discriminate]|discriminate]. }
  { rewrite Forall_forall. intros n Hn. apply (In_nth _ _ O) in Hn. destruct Hn as [e [H1 <-]]. unfold new. rewrite nth_set_at. destruct (Nat.eq_dec e dir); [destruct (lt_dec dir (length o)); [lia|unfold k in *; lia]|].
    rewrite Forall_forall in Hpos. apply Hpos, nth_In. unfold k in *. congruence. }
  { rewrite map_length, tp_all_length. reflexivity. }
  exists (mk_poly new (map h (tp_all new))). split; [|split; [exact V|split; [reflexivity|]]].
  - unfold create_derivative. fold o k new. unfold assert_. destruct (Nat.ltb_spec dir k); [|lia]. destruct (Nat.eqb_spec (nth dir o O - 1) 0); [lia|]. exact Mk.
  - intros x Hx. rewrite mono_eval_fE by (assumption || (cbn [p_order]; congruence)). cbn [p_order p_coefs]. unfold fE. rewrite tsum_map. unfold tsum.
    assert (Hay : exists a y, x = tins dir a y /\ length y = (k - 1)%nat).
    { exists (nth dir x 0), (remove_component dir x). split; [apply tins_remove; lia|rewrite remove_length; lia]. }
    destruct Hay as (a & y & -> & Ly). clear Hx.
    rewrite (rsum_fubini dir new) by lia. rewrite (rsum_fubini dir o) by assumption. unfold new. rewrite remove_set. fold new. set (o' := remove_component dir o).
    assert (Lo' : length o' = (k - 1)%nat) by (apply remove_length; assumption).
    apply rsum_ext. intros t Ht. assert (Ht' := Ht). apply tp_all_In in Ht'. destruct Ht' as [Lt _]. rewrite Nn.
    fold (bigsum (nth dir o O) (fun i => nth (tp_flat o (tins dir i t)) (p_coefs p) 0 * termp (fun d i0 => fM (bump (fun _ => O) dir d) (nth d o O) i0 (nth d (tins dir a y) 0)) (length o) (tins dir i t))).
    replace (nth dir o O) with (S (nth dir o O - 1)) at 2 by lia. rewrite bigsum_S_l.
    rewrite (dterm_ins fM) by (fold k; lia). unfold fM at 2. rewrite DM_1. rewrite Rmult_0_l, Rmult_0_r, Rplus_0_l.
    apply rsum_ext. intros i Hi. apply in_seq in Hi. rewrite (dterm_ins fM) by (fold k; lia). fold o'.
    replace (termp (fun d i0 => fM O (nth d new O) i0 (nth d (tins dir a y) 0)) (length new) (tins dir i t)) with (gterm fM new (tins dir a y) (tins dir i t)) by reflexivity.
    rewrite gterm_ins by lia. unfold new. rewrite remove_set. fold new. fold o'.
    assert (Hle : (dir <= length t)%nat) by lia. unfold h. cbv zeta. rewrite tins_nth, tins_set, tins_nth by assumption. unfold fM. rewrite DM_1.
    unfold DM, falling. cbn [seq fold_left Nat.ltb Nat.leb]. rewrite Nat.sub_0_r. generalize (INR (S i)). intros. ring.
Qed.
Lemma nth_set_same {A} (l : list A) d v dd : (d < length l)%nat -> nth d (set_at l d v) dd = v.
Proof. intros H. rewrite nth_set_at. destruct (Nat.eq_dec d d); [|congruence]. destruct (lt_dec d (length l)); [reflexivity|contradiction]. Qed.
(** The partial derivative from the gradient. *)
Lemma gradient_partial k f x g d : has_gradient k f x g -> length x = k -> (d < k)%nat -> is_derive (fun s : R => f (set_at x d s)) (nth d x 0) (nth d g 0).
Proof.
  intros [HL HG] Hx Hd. set (a := nth d x 0).
  specialize (HG (fun i t => if Nat.eqb i d then a + t else nth i x 0) (fun i => if Nat.eqb i d then 1 else 0)).
  assert (H0 : is_derive (fun t : R => f (map (fun i => if Nat.eqb i d then a + t else nth i x 0) (seq 0 k))) 0 (nth d g 0)).
  { replace (nth d g 0) with (fold_right Rplus 0 (map (fun i => nth i g 0 * (if Nat.eqb i d then 1 else 0)) (seq 0 k))) by (apply (rsum_pick (fun i => nth i g 0)); assumption).
    apply HG.
    - intros i Hi. destruct (Nat.eqb_spec i d) as [-> |]; [fold a; ring|reflexivity].
    - intros i Hi. destruct (Nat.eqb i d); [|apply (is_derive_const (K := R_AbsRing) (V := R_NormedModule) (nth i x 0) 0)].
      replace 1 with (0 + 1) by ring. apply (is_derive_plus (K := R_AbsRing) (V := R_NormedModule) (fun _ : R => a) (fun t : R => t)); [apply (is_derive_const (K := R_AbsRing) (V := R_NormedModule) a 0)|apply (is_derive_id (K := R_AbsRing) 0)]. }
  apply (is_derive_ext (fun s : R => f (map (fun i => if Nat.eqb i d then a + (s - a) else nth i x 0) (seq 0 k)))).
  - intros s. f_equal. apply nth_ext with (d := 0) (d' := 0); [rewrite map_length, seq_length, set_at_len; congruence|]. rewrite map_length, seq_length. intros i Hi. rewrite map_seq_nth' by assumption. rewrite nth_set_at.
    destruct (Nat.eq_dec i d) as [-> | Hn]; [rewrite Nat.eqb_refl; destruct (lt_dec d (length x)); [ring|lia]|rewrite (proj2 (Nat.eqb_neq i d) Hn); reflexivity].
  - replace (nth d g 0) with (1 * nth d g 0) by ring.
    apply (is_derive_comp (fun t : R => f (map (fun i => if Nat.eqb i d then a + t else nth i x 0) (seq 0 k))) (fun s : R => s - a) a (nth d g 0) 1).
    + replace (a - a) with 0 by ring. exact H0.
    + replace 1 with (1 - 0) by ring. apply (is_derive_minus (K := R_AbsRing) (V := R_NormedModule) (fun t : R => t) (fun _ : R => a)); [apply (is_derive_id (K := R_AbsRing) a)|apply (is_derive_const (K := R_AbsRing) (V := R_NormedModule) a a)].
Qed.
Lemma derivative_is_partial p dir : valid_poly p -> (dir < length (p_order p))%nat -> (2 <= nth dir (p_order p) O)%nat ->
  exists q, create_derivative p dir = Ret q /\ valid_poly q /\ 
    forall x, length x = length (p_order p) -> is_derive (fun s : R => mono_eval p (set_at x dir s)) (nth dir x 0) (mono_eval q x).
Proof.
  intros Hp Hd H2. destruct (create_derivative_ok p dir Hp Hd H2) as [q (E & V & _ & Ev)]. exists q. split; [exact E|split; [exact V|]]. intros x Hx. rewrite Ev by assumption.
  set (G := map (fun d => fE fM (p_order p) (p_coefs p) (bump (fun _ => O) d) x) (seq 0 (length (p_order p)))).
  replace (fE fM (p_order p) (p_coefs p) (bump (fun _ => O) dir) x) with (nth dir G 0) by (unfold G; rewrite map_seq_nth' by assumption; reflexivity).
  apply (gradient_partial (length (p_order p)) (mono_eval p) x G dir); [|assumption|assumption].
  apply (has_gradient_ext _ (fE fM (p_order p) (p_coefs p) (fun _ => O))); [intros; symmetry; apply mono_eval_fE; assumption|]. apply fE_gradient; [apply fM_good|assumption].
Qed.
