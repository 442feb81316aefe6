(** Composition of Bezier polynomials. *)
From Coq Require Import Reals List Lia Lra Binomial ZArith.
From Coquelicot Require Import Coquelicot.
From Verif Require Import M_Poly S_Poly S_Affine L_Real L_Point L_BBox L_TensorNat L_Poly L_Poly2 L_Poly3 L_Poly4 L_Poly5 L_Poly6 L_Poly7 L_Poly8.
Import ListNotations.
Local Close Scope Z_scope.
Local Open Scope R_scope.

Lemma mapM_ex {A B} (f : A -> outcome B) (Q : A -> B -> Prop) l : (forall a, In a l -> exists b, f a = Ret b /\ Q a b) -> exists bs, mapM f l = Ret bs /\ Forall2 Q l bs.
Proof.
  induction l as [|a l IH]; intros H; cbn [mapM]; [exists []; split; [reflexivity|constructor]|].
  destruct (H a (or_introl eq_refl)) as [b [-> Hb]]. destruct IH as [bs [-> Hbs]]; [intros; apply H; right; assumption|]. cbn [bind]. exists (b :: bs). split; [reflexivity|constructor; assumption].
Qed.
Lemma F2_len {A B} (Q : A -> B -> Prop) l m : Forall2 Q l m -> length l = length m.
Proof. induction 1; cbn; congruence. Qed.
Lemma F2_nth {A B} (Q : A -> B -> Prop) l m da db i : Forall2 Q l m -> (i < length l)%nat -> Q (nth i l da) (nth i m db).
Proof. intros H. revert i. induction H; intros [|i] Hi; cbn in *; try lia; auto. apply IHForall2. lia. Qed.
Lemma F2_concat_map {A B C} (Q : C -> B -> Prop) (g : A -> list C) l : forall ms, Forall2 (fun a m => Forall2 Q (g a) m) l ms -> Forall2 Q (flat_map g l) (concat ms).
Proof. induction l as [|a l IH]; intros ms H; inversion H; subst; cbn; [constructor|]. apply Forall2_app; auto. Qed.

Definition isP (k : nat) (q : M_Poly.poly) (o : list nat) (g : list R -> R) : Prop :=
  valid_poly q /\ p_order q = o /\ length o = k /\ forall x, length x = k -> bezier_eval q x = g x.
Lemma isP_ext k q o o' g g' : isP k q o g -> o = o' -> (forall x, length x = k -> g x = g' x) -> isP k q o' g'.
Proof. intros (V & O & L & E) <- H. split; [assumption|]. split; [assumption|]. split; [assumption|]. intros x Hx. rewrite E, H by assumption. reflexivity. Qed.
Lemma isP_prod k p q o o' g g' : (1 <= k <= 3)%nat -> isP k p o g -> isP k q o' g' ->
  exists r, bezier_product p q = Ret r /\ isP k r (product_order o o') (fun x => g x * g' x).
Proof.
  intros Hk (Vp & Op & Lp & Ep) (Vq & Oq & Lq & Eq). destruct (bezier_product_ok p q Vp Vq) as [r (E & V & Or & Ev)]; [congruence|unfold good_dim; rewrite Op, Lp; exact Hk|].
  exists r. split; [exact E|]. split; [exact V|]. split; [congruence|]. split; [rewrite product_order_length; congruence|].
  intros x Hx. rewrite Ev by congruence. rewrite Ep, Eq by assumption. reflexivity.
Qed.
Definition pow_order (o : list nat) (i : nat) : list nat := map (fun n => (i * (n - 1) + 1)%nat) o.
Lemma pow_order_length o i : length (pow_order o i) = length o. Proof. apply map_length. Qed.
Lemma map2_map {A B C D E} (f : C -> D -> E) (g : A -> C) (h : B -> D) l : forall m, map2 f (map g l) (map h m) = map2 (fun a b => f (g a) (h b)) l m.
Proof. induction l as [|a l IH]; intros [|b m]; cbn; auto. rewrite IH. reflexivity. Qed.
Lemma pow_order_prod o i j : product_order (pow_order o i) (pow_order o j) = pow_order o (i + j).
Proof.
  unfold product_order, pow_order. rewrite map2_map. induction o as [|n o IH]; [reflexivity|]. cbn [map2 map]. rewrite IH. f_equal. nia.
Qed.
Lemma pow_order_1 o : Forall (fun n => (0 < n)%nat) o -> pow_order o 1 = o.
Proof. induction 1; [reflexivity|]. cbn. f_equal; [lia|assumption]. Qed.
Lemma pow_order_0 o : pow_order o 0 = tp_const (length o) 1.
Proof. induction o; [reflexivity|]. cbn. f_equal. assumption. Qed.
Lemma more_powers_ok k p o g : (1 <= k <= 3)%nat -> isP k p o g -> forall n i prev, isP k prev (pow_order o i) (fun x => g x ^ i) ->
  exists l, more_powers p prev n = Ret l /\ length l = n /\ forall j, (j < n)%nat -> isP k (nth j l poly0) (pow_order o (i + 1 + j)) (fun x => g x ^ (i + 1 + j)).
Proof.
  intros Hk Hp n. assert (Hpos : Forall (fun n => (0 < n)%nat) o) by (destruct Hp as ((_ & H & _) & <- & _); exact H).
  induction n as [|n IH]; intros i prev Hprev; [exists []; split; [reflexivity|split; [reflexivity|intros; lia]]|].
  cbn [more_powers]. destruct (isP_prod k p prev o (pow_order o i) g _ Hk Hp Hprev) as [q [-> Hq]]. cbn [bind].
  assert (Hq' : isP k q (pow_order o (i + 1)) (fun x => g x ^ (i + 1))).
  { apply (isP_ext _ _ _ _ _ _ Hq); [rewrite <- (pow_order_1 o Hpos) at 1; rewrite pow_order_prod; f_equal; lia|]. intros x _. rewrite pow_add. simpl. ring. }
  destruct (IH (i + 1)%nat q Hq') as [l (-> & Ll & Nl)]. cbn [bind]. exists (q :: l). split; [reflexivity|split; [cbn; lia|]].
  intros [|j] Hj; cbn [nth]; [replace (i + 1 + 0)%nat with (i + 1)%nat by lia; exact Hq'|]. replace (i + 1 + S j)%nat with (i + 1 + 1 + j)%nat by lia. apply Nl. lia.
Qed.
Lemma compute_powers_ok k p o g order : (1 <= k <= 3)%nat -> isP k p o g -> (2 <= order)%nat ->
  exists l, compute_powers p order = Ret l /\ length l = (order - 1)%nat /\ forall j, (j < order - 1)%nat -> isP k (nth j l poly0) (pow_order o (S j)) (fun x => g x ^ S j).
Proof.
  intros Hk Hp Ho. unfold compute_powers, assert_. destruct (Nat.ltb_spec 1 order); [|lia].
  assert (Hpos : Forall (fun n => (0 < n)%nat) o) by (destruct Hp as ((_ & H0 & _) & <- & _); exact H0).
  assert (Hp1 : isP k p (pow_order o 1) (fun x => g x ^ 1)) by (apply (isP_ext _ _ _ _ _ _ Hp); [symmetry; apply pow_order_1; exact Hpos|intros; ring]).
  destruct (more_powers_ok k p o g Hk Hp (order - 2) 1 p Hp1) as [l (-> & Ll & Nl)]. cbn [bind]. exists (p :: l). split; [reflexivity|split; [cbn; lia|]].
  intros [|j] Hj; cbn [nth]; [exact Hp1|]. apply (Nl j). lia.
Qed.
Lemma isP_scale k p o g s b : isP k p o g -> isP k (coefs_linear_transform p s b) o (fun x => s * g x + b).
Proof.
  intros (V & Op & L & E). assert (H : forall x, length x = k -> valid_poly (coefs_linear_transform p s b) /\ bezier_eval (coefs_linear_transform p s b) x = s * bezier_eval p x + b).
  { intros x Hx. apply bezier_affine; [reflexivity|assumption|congruence]. }
  split; [apply (H (repeat 0 k)); apply repeat_length|]. split; [exact Op|split; [exact L|]]. intros x Hx. destruct (H x Hx) as [_ ->]. rewrite E by assumption. reflexivity.
Qed.
Lemma compose_bases_ok k p o g order : (1 <= k <= 3)%nat -> isP k p o g -> (0 < order)%nat ->
  exists l, compose_bases p order = Ret l /\ length l = order /\ forall i, (i < order)%nat -> isP k (nth i l poly0) (pow_order o (order - 1)) (fun x => B (order - 1) i (g x)).
Proof.
  intros Hk Hp Ho. assert (Hpos : Forall (fun n => (0 < n)%nat) o) by (destruct Hp as ((_ & H0 & _) & <- & _); exact H0).
  assert (Lo : length o = k) by (destruct Hp as (_ & _ & H0 & _); exact H0). assert (Op : p_order p = o) by (destruct Hp as (_ & H0 & _ & _); exact H0).
  unfold compose_bases, assert_. destruct (Nat.ltb_spec 0 order); [|lia]. destruct (Nat.ltb_spec 1 order) as [H1 | H1].
  - destruct (compute_powers_ok k p o g order Hk Hp H1) as [l0 (-> & L0 & N0)]. cbn [bind].
    assert (Hm : isP k (one_minus p) o (fun x => 1 - g x)) by (apply (isP_ext _ _ _ _ _ _ (isP_scale k p o g (-1) 1 Hp)); [reflexivity|intros; ring]).
    destruct (compute_powers_ok k (one_minus p) o _ order Hk Hm H1) as [l1 (-> & L1 & N1)]. cbn [bind]. set (deg := (order - 1)%nat) in *.
    destruct (mapM_ex (fun i => c <- bezier_product (nth (i - 1) l0 poly0) (nth (deg - 1 - i) l1 poly0) ;; Ret (coefs_linear_transform c (binom deg i) 0))
       (fun i q => isP k q (pow_order o deg) (fun x => B deg i (g x))) (seq 1 (deg - 1))) as [mid [-> Hmid]].
    { intros i Hi. apply in_seq in Hi. destruct (isP_prod k _ _ _ _ _ _ Hk (N0 (i - 1)%nat ltac:(lia)) (N1 (deg - 1 - i)%nat ltac:(lia))) as [q [-> Hq]]. cbn [bind].
      eexists. split; [reflexivity|]. apply (isP_ext _ _ _ _ _ _ (isP_scale k q _ _ (binom deg i) 0 Hq)); [rewrite pow_order_prod; f_equal; lia|].
      intros x _. unfold B. replace (S (i - 1)) with i by lia. replace (S (deg - 1 - i)) with (deg - i)%nat by lia. ring. }
    cbn [bind]. eexists. split; [reflexivity|]. assert (Lm : length mid = (deg - 1)%nat) by (apply F2_len in Hmid; rewrite seq_length in Hmid; lia).
    split; [cbn [length]; rewrite app_length; cbn [length]; lia|]. intros i Hi. destruct i as [|i]; cbn [nth].
    + rewrite last_nth, L1. apply (isP_ext _ _ _ _ _ _ (N1 (deg - 1)%nat ltac:(lia))); [f_equal; lia|]. intros x _. unfold B. rewrite binom_0, Nat.sub_0_r. replace (S (deg - 1)) with deg by lia. cbn [pow]. ring.
    + destruct (lt_dec i (length mid)) as [Hlt | Hge].
      * rewrite app_nth1 by assumption. assert (HF := F2_nth _ _ _ O poly0 i Hmid). rewrite seq_length in HF. specialize (HF ltac:(lia)). rewrite seq_nth in HF by lia. exact HF.
      * rewrite app_nth2 by lia. replace (i - length mid)%nat with O by lia. cbn [nth]. rewrite last_nth, L0. apply (isP_ext _ _ _ _ _ _ (N0 (deg - 1)%nat ltac:(lia))); [f_equal; lia|].
        intros x _. unfold B. replace (S i) with deg by lia. rewrite binom_C, C_n_n, Nat.sub_diag by lia. replace (S (deg - 1)) with deg by lia. rewrite pow_O. ring.
  - assert (order = 1%nat) by lia. subst order. rewrite Op, Lo. destruct (make_poly_ok (tp_const k 1) [1]) as [-> V].
    { destruct k; [lia|discriminate]. }
    { unfold tp_const. apply Forall_forall. intros n Hn. apply repeat_spec in Hn. lia. }
    { unfold tp_const. clear. induction k; [reflexivity|]. unfold tp_size in *. cbn. rewrite <- IHk. reflexivity. }
    cbn [bind]. eexists. split; [reflexivity|]. split; [reflexivity|]. intros i Hi. assert (i = O) by lia. subst i. cbn [nth Nat.sub]. rewrite pow_order_0, Lo.
    split; [exact V|]. split; [reflexivity|]. split; [apply repeat_length|]. intros x Hx. rewrite B_00. 
    assert (Hb : forall z, In z [1] -> 1 <= z <= 1) by (intros z [<- | []]; lra).
    rewrite bezier_tsum by (assumption || (cbn [p_order]; unfold tp_const; rewrite repeat_length; assumption)). cbn [p_order p_coefs]. unfold tsum.
    assert (Hpo : Forall (fun n => (0 < n)%nat) (tp_const k 1)) by (destruct V as (_ & H0 & _); exact H0). transitivity (rsum (map (bern_term (tp_const k 1) x) (tp_all (tp_const k 1)))); [|apply bern_sum; assumption].
    apply rsum_ext. intros t Ht. assert (Hf := tp_flat_in _ _ Ht). destruct V as (_ & _ & HL). cbn [p_coefs p_order] in HL. rewrite <- HL in Hf. cbn in Hf. replace (tp_flat (tp_const k 1) t) with O by lia. cbn [nth]. ring.
Qed.
(** The products. *)
Definition Bt (ns : list nat) (gs : list (list R -> R)) (t : list nat) (x : list R) : R := bern_term ns (map (fun g => g x) gs) t.
Lemma Bt_cons n ns g gs i t x : Bt (n :: ns) (g :: gs) (i :: t) x = B (n - 1) i (g x) * Bt ns gs t x.
Proof. unfold Bt, bern_term. cbn [length map]. rewrite termp_S. reflexivity. Qed.
Lemma Bt_nil x : Bt [] [] [] x = 1. Proof. reflexivity. Qed.
Definition basis_of (k : nat) (l : list M_Poly.poly) (n : nat) (o : list nat) (g : list R -> R) : Prop :=
  length l = n /\ forall i, (i < n)%nat -> isP k (nth i l poly0) o (fun x => B (n - 1) i (g x)).
Lemma basis_of_F2 k l n o g : basis_of k l n o g -> Forall2 (fun i q => isP k q o (fun x => B (n - 1) i (g x))) (seq 0 n) l.
Proof.
  intros [HL H]. assert (G : forall m a l, length l = m -> (forall i, (i < m)%nat -> isP k (nth i l poly0) o (fun x => B (n - 1) (a + i) (g x))) -> Forall2 (fun i q => isP k q o (fun x => B (n - 1) i (g x))) (seq a m) l).
  { clear. induction m as [|m IH]; intros a [|q l] HL H; try discriminate; cbn [seq]; constructor.
    - assert (H0 := H O ltac:(lia)). cbn [nth] in H0. rewrite Nat.add_0_r in H0. exact H0.
    - apply IH; [cbn in HL; lia|]. intros i Hi. assert (H0 := H (S i) ltac:(lia)). cbn [nth] in H0. replace (S a + i)%nat with (a + S i)%nat by lia. exact H0. }
  apply G; assumption.
Qed.
Lemma F2_map_l {A A' B} (Q : A -> B -> Prop) (h : A' -> A) l m : Forall2 (fun a b => Q (h a) b) l m -> Forall2 Q (map h l) m.
Proof. induction 1; cbn; constructor; auto. Qed.
Lemma F2_imp {A B} (P Q : A -> B -> Prop) l m : (forall a b, P a b -> Q a b) -> Forall2 P l m -> Forall2 Q l m.
Proof. intros H. induction 1; constructor; auto. Qed.
Lemma mapM_F2b {A B C} (P : A -> B -> Prop) (Q : A -> C -> Prop) (f : B -> outcome C) l m : Forall2 P l m -> (forall a b, P a b -> exists c, f b = Ret c /\ Q a c) ->
  exists cs, mapM f m = Ret cs /\ Forall2 Q l cs.
Proof.
  intros H Hf. induction H as [|a b l m Hab _ IH]; cbn [mapM]; [exists []; split; [reflexivity|constructor]|].
  destruct (Hf a b Hab) as [c [-> Hc]]. destruct IH as [cs [-> Hcs]]. cbn [bind]. exists (c :: cs). split; [reflexivity|constructor; assumption].
Qed.
Lemma basis_products_ok k ns os gs bases : (1 <= k <= 3)%nat -> (1 <= length ns <= 3)%nat -> length os = length ns -> length gs = length ns -> length bases = length ns ->
  (forall d, (d < length ns)%nat -> basis_of k (nth d bases []) (nth d ns O) (nth d os []) (nth d gs (fun _ => 0))) ->
  (forall d, (d < length ns)%nat -> length (nth d os []) = k /\ Forall (fun n => (0 < n)%nat) (nth d os [])) ->
  exists prods, basis_products bases = Ret prods /\
    Forall2 (fun t q => isP k q (fold_left (fun acc o => map2 (fun a o => (a + (o - 1))%nat) acc o) os (tp_const k 1)) (Bt ns gs t)) (tp_all ns) prods.
Proof.
  intros Hk Hn Lo Lg Lb Hb Ho.
  assert (Hord : forall o a c : list nat, length o = k -> length a = k -> length c = k -> (forall d, (d < k)%nat -> nth d a O = nth d c O) -> a = c) by (intros; apply nth_ext with (d := O) (d' := O); congruence || (intros; apply H2; congruence)).
  destruct ns as [|n0 [|n1 [|n2 [|]]]]; cbn [length] in *; try lia.
  - destruct os as [|o0 [|]]; try discriminate. destruct gs as [|g0 [|]]; try discriminate. destruct bases as [|b0 [|]]; try discriminate.
    assert (B0 := basis_of_F2 _ _ _ _ _ (Hb O ltac:(lia))). cbn [nth] in *. destruct (Ho O ltac:(lia)) as [L0 P0]. cbn [nth] in *. cbn [basis_products fold_left]. eexists. split; [reflexivity|].
    unfold tp_all, tp_const. cbn [length repeat tp_range flat_map]. rewrite app_nil_r, Nat.sub_0_r. apply F2_map_l. refine (F2_imp _ _ _ _ _ B0). intros i q Hq. apply (isP_ext _ _ _ _ _ _ Hq).
    + apply (Hord o0); [assumption|assumption|rewrite map2_length; rewrite repeat_length; congruence|]. intros d Hd. rewrite (map2_nth _ _ _ d O O O) by (rewrite ?repeat_length; congruence). rewrite repeat_nth_lt by assumption.
      assert (0 < nth d o0 O)%nat by (rewrite Forall_forall in P0; apply P0, nth_In; congruence). lia.
    + intros x Hx. rewrite Bt_cons, Bt_nil. ring.
  - destruct os as [|o0 [|o1 [|]]]; try discriminate. destruct gs as [|g0 [|g1 [|]]]; try discriminate. destruct bases as [|b0 [|b1 [|]]]; try discriminate.
    assert (B0 := basis_of_F2 _ _ _ _ _ (Hb O ltac:(lia))). assert (B1 := basis_of_F2 _ _ _ _ _ (Hb 1%nat ltac:(lia))). destruct (Ho O ltac:(lia)) as [L0 P0]. destruct (Ho 1%nat ltac:(lia)) as [L1 P1]. cbn [nth] in *. cbn [basis_products fold_left].
    set (OO := map2 _ (map2 _ _ o0) o1).
    assert (EO : product_order o0 o1 = OO).
    { apply (Hord o0); [assumption|rewrite product_order_length; congruence|unfold OO; rewrite !map2_length; rewrite ?map2_length; unfold tp_const; rewrite ?repeat_length; congruence|]. intros d Hd.
      rewrite product_order_nth by congruence. unfold OO. rewrite (map2_nth _ _ _ d O O O) by (rewrite ?map2_length; unfold tp_const; rewrite ?repeat_length; congruence). rewrite (map2_nth _ _ _ d O O O) by (unfold tp_const; rewrite ?repeat_length; congruence).
      unfold tp_const. rewrite repeat_nth_lt by assumption. lia. }
    destruct (mapM_F2b (fun j q => isP k q o1 (fun x => B (n1 - 1) j (g1 x))) (fun j r => Forall2 (fun t q => isP k q OO (Bt [n0; n1] [g0; g1] t)) (map (fun i => [i; j]) (seq 0 n0)) r)
        (fun v => mapM (fun u => bezier_product u v) b0) _ _ B1) as [rr [-> HR]].
    { intros j v Hv. destruct (mapM_F2b (fun i q => isP k q o0 (fun x => B (n0 - 1) i (g0 x))) (fun i q => isP k q OO (Bt [n0; n1] [g0; g1] [i; j])) (fun u => bezier_product u v) _ _ B0) as [r [-> Hr]].
      - intros i u Hu. destruct (isP_prod k u v _ _ _ _ Hk Hu Hv) as [q [-> Hq]]. exists q. split; [reflexivity|]. apply (isP_ext _ _ _ _ _ _ Hq EO). intros x _. rewrite !Bt_cons, Bt_nil. ring.
      - exists r. split; [reflexivity|]. apply F2_map_l. exact Hr. }
    cbn [bind]. eexists. split; [reflexivity|]. unfold tp_all, tp_const. cbn [length repeat tp_range flat_map]. rewrite app_nil_r, !Nat.sub_0_r. rewrite flat_map_map. apply (F2_concat_map _ (fun j => map (fun i => [i; j]) (seq 0 n0))). exact HR.
  - destruct os as [|o0 [|o1 [|o2 [|]]]]; try discriminate. destruct gs as [|g0 [|g1 [|g2 [|]]]]; try discriminate. destruct bases as [|b0 [|b1 [|b2 [|]]]]; try discriminate.
    assert (B0 := basis_of_F2 _ _ _ _ _ (Hb O ltac:(lia))). assert (B1 := basis_of_F2 _ _ _ _ _ (Hb 1%nat ltac:(lia))). assert (B2 := basis_of_F2 _ _ _ _ _ (Hb 2%nat ltac:(lia))).
    destruct (Ho O ltac:(lia)) as [L0 P0]. destruct (Ho 1%nat ltac:(lia)) as [L1 P1]. destruct (Ho 2%nat ltac:(lia)) as [L2 P2]. cbn [nth] in *. cbn [basis_products fold_left].
    set (OO := map2 _ (map2 _ (map2 _ _ o0) o1) o2).
    assert (EO : product_order o0 (product_order o2 o1) = OO).
    { apply (Hord o0); [assumption|rewrite product_order_length; rewrite ?product_order_length; congruence|unfold OO; rewrite !map2_length; rewrite ?map2_length; rewrite ?map2_length; unfold tp_const; rewrite ?repeat_length; congruence|]. intros d Hd.
      rewrite product_order_nth by (rewrite ?product_order_length; congruence). rewrite product_order_nth by congruence. unfold OO.
      rewrite (map2_nth _ _ _ d O O O) by (rewrite ?map2_length; rewrite ?map2_length; unfold tp_const; rewrite ?repeat_length; congruence).
      rewrite (map2_nth _ _ _ d O O O) by (rewrite ?map2_length; unfold tp_const; rewrite ?repeat_length; congruence). rewrite (map2_nth _ _ _ d O O O) by (unfold tp_const; rewrite ?repeat_length; congruence).
      unfold tp_const. rewrite repeat_nth_lt by assumption. lia. }
    destruct (mapM_F2b (fun l q => isP k q o2 (fun x => B (n2 - 1) l (g2 x)))
        (fun l r => Forall2 (fun t q => isP k q OO (Bt [n0; n1; n2] [g0; g1; g2] t)) (flat_map (fun j => map (fun i => [i; j; l]) (seq 0 n0)) (seq 0 n1)) r)
        (fun w => s <- mapM (fun v => vw <- bezier_product w v ;; mapM (fun u => bezier_product u vw) b0) b1 ;; Ret (concat s)) _ _ B2) as [rr [-> HR]].
    { intros l w Hw.
      destruct (mapM_F2b (fun j q => isP k q o1 (fun x => B (n1 - 1) j (g1 x))) (fun j r => Forall2 (fun t q => isP k q OO (Bt [n0; n1; n2] [g0; g1; g2] t)) (map (fun i => [i; j; l]) (seq 0 n0)) r)
        (fun v => vw <- bezier_product w v ;; mapM (fun u => bezier_product u vw) b0) _ _ B1) as [ss [-> HS]].
      - intros j v Hv. destruct (isP_prod k w v _ _ _ _ Hk Hw Hv) as [vw [-> Hvw]]. cbn [bind].
        destruct (mapM_F2b (fun i q => isP k q o0 (fun x => B (n0 - 1) i (g0 x))) (fun i q => isP k q OO (Bt [n0; n1; n2] [g0; g1; g2] [i; j; l])) (fun u => bezier_product u vw) _ _ B0) as [r [-> Hr]].
        + intros i u Hu. destruct (isP_prod k u vw _ _ _ _ Hk Hu Hvw) as [q [-> Hq]]. exists q. split; [reflexivity|]. apply (isP_ext _ _ _ _ _ _ Hq EO). intros x _. rewrite !Bt_cons, Bt_nil. ring.
        + exists r. split; [reflexivity|]. apply F2_map_l. exact Hr.
      - cbn [bind]. eexists. split; [reflexivity|]. apply (F2_concat_map _ (fun j => map (fun i => [i; j; l]) (seq 0 n0))). exact HS. }
    cbn [bind]. eexists. split; [reflexivity|]. unfold tp_all, tp_const. cbn [length repeat tp_range flat_map]. rewrite app_nil_r, !Nat.sub_0_r. rewrite flat_map_map, flat_map_flat_map.
    rewrite (flat_map_ext_in _ (fun l => flat_map (fun j => map (fun i => [i; j; l]) (seq 0 n0)) (seq 0 n1))) by (intros; rewrite flat_map_map; reflexivity).
    apply (F2_concat_map _ (fun l => flat_map (fun j => map (fun i => [i; j; l]) (seq 0 n0)) (seq 0 n1))). exact HR.
Qed.

Lemma bezier_zero o x : valid_poly (mk_poly o (repeat 0 (tp_size o))) -> length x = length o -> bezier_eval (mk_poly o (repeat 0 (tp_size o))) x = 0.
Proof.
  intros V Hx. rewrite bezier_tsum by assumption. cbn [p_order p_coefs]. unfold tsum. apply rsum_zero. intros t _. rewrite nth_repeat0. ring.
Qed.
Lemma accumulate_ok k o x : length o = k -> length x = k -> o <> [] -> Forall (fun n => (0 < n)%nat) o -> forall (l : list (M_Poly.poly * R)) acc,
  length acc = tp_size o -> Forall (fun qs => valid_poly (fst qs) /\ p_order (fst qs) = o) l ->
  length (fold_left (fun acc bc => map2 (fun a c => a + c * snd bc) acc (p_coefs (fst bc))) l acc) = tp_size o /\
  bezier_eval (mk_poly o (fold_left (fun acc bc => map2 (fun a c => a + c * snd bc) acc (p_coefs (fst bc))) l acc)) x = bezier_eval (mk_poly o acc) x + rsum (map (fun qs => snd qs * bezier_eval (fst qs) x) l).
Proof.
  intros Lo Lx Hne Hpos l. induction l as [|[q s] l IH]; intros acc La Hl; [split; [assumption|unfold rsum; simpl; ring]|].
  inversion Hl as [|? ? [Vq Oq] Hl']; subst. cbn [fst snd] in *. cbn [fold_left map fst snd]. rewrite rsum_cons. cbn [fst snd].
  assert (Lq : length (p_coefs q) = tp_size (p_order q)) by (destruct Vq as (_ & _ & H); exact H).
  assert (L1 : length (map2 (fun a c => a + c * s) acc (p_coefs q)) = tp_size (p_order q)) by (rewrite map2_length; congruence).
  destruct (IH _ L1 Hl') as [I1 I2]. split; [exact I1|]. rewrite I2.
  rewrite (map2_op_eval (fun a c => a + c * s) (p_order q) acc (p_coefs q)); try assumption; [|exists s; intros; ring].
  destruct q as [oq cq]. cbn [p_order p_coefs] in *. ring.
Qed.
Lemma F2_nthI {A B} (Q : A -> B -> Prop) da db l : forall m, length l = length m -> (forall i, (i < length l)%nat -> Q (nth i l da) (nth i m db)) -> Forall2 Q l m.
Proof.
  induction l as [|a l IH]; intros [|b m] HL H; try discriminate; constructor; [apply (H O); cbn; lia|]. apply IH; [cbn in HL; lia|]. intros i Hi. apply (H (S i)). cbn. lia.
Qed.
Lemma combine_nth' {A B} (l : list A) (m : list B) i da db : length l = length m -> nth i (combine l m) (da, db) = (nth i l da, nth i m db).
Proof. intros. apply combine_nth. assumption. Qed.
Lemma bezier_compose_ok lhs rhs k : valid_poly lhs -> good_dim lhs -> (1 <= k <= 3)%nat -> length rhs = length (p_order lhs) ->
  Forall (fun g => valid_poly g /\ length (p_order g) = k) rhs ->
  exists r, bezier_compose lhs rhs = Ret r /\ valid_poly r /\ length (p_order r) = k /\
    forall x, length x = k -> bezier_eval r x = bezier_eval lhs (map (fun g => bezier_eval g x) rhs).
Proof.
  intros Vl Hd Hk HL Hr. set (ns := p_order lhs) in *. unfold bezier_compose. fold ns.
  assert (Hpos : Forall (fun n => (0 < n)%nat) ns) by (destruct Vl as (_ & H & _); exact H).
  set (Q := fun (po : M_Poly.poly * nat) (l : list M_Poly.poly) => basis_of k l (snd po) (pow_order (p_order (fst po)) (snd po - 1)) (bezier_eval (fst po))).
  destruct (mapM_ex (fun po => compose_bases (fst po) (snd po)) Q (combine rhs ns)) as [bases [-> HB]].
  { intros [g n] Hin. cbn [fst snd]. assert (Hg := in_combine_l _ _ _ _ Hin). assert (Hn := in_combine_r _ _ _ _ Hin). rewrite Forall_forall in Hr, Hpos. destruct (Hr g Hg) as [Vg Lg].
    destruct (compose_bases_ok k g (p_order g) (bezier_eval g) n Hk) as [l (E & Ll & Nl)]; [split; [exact Vg|split; [reflexivity|split; [exact Lg|reflexivity]]]|apply Hpos; assumption|].
    exists l. split; [exact E|]. split; [exact Ll|exact Nl]. }
  cbn [bind].
  assert (LB : length bases = length ns) by (apply F2_len in HB; rewrite combine_length in HB; lia).
  set (os := map (fun po : M_Poly.poly * nat => pow_order (p_order (fst po)) (snd po - 1)) (combine rhs ns)). set (gs := map bezier_eval rhs).
  assert (Los : length os = length ns) by (unfold os; rewrite map_length, combine_length; lia).
  assert (Nos : forall d, (d < length ns)%nat -> nth d os [] = pow_order (p_order (nth d rhs poly0)) (nth d ns O - 1)).
  { intros d Hdd. unfold os. rewrite (nth_indep _ [] ((fun po : M_Poly.poly * nat => pow_order (p_order (fst po)) (snd po - 1)) (poly0, O))) by (rewrite map_length, combine_length; lia).
    rewrite (map_nth (fun po : M_Poly.poly * nat => pow_order (p_order (fst po)) (snd po - 1))), combine_nth' by congruence. reflexivity. }
  assert (Ngs : forall d, (d < length ns)%nat -> nth d gs (fun _ => 0) = bezier_eval (nth d rhs poly0)).
  { intros d Hdd. unfold gs. rewrite (nth_indep _ (fun _ => 0) (bezier_eval poly0)) by (rewrite map_length; lia). apply map_nth. }
  assert (HBd : forall d, (d < length ns)%nat -> basis_of k (nth d bases []) (nth d ns O) (nth d os []) (nth d gs (fun _ => 0))).
  { intros d Hdd. assert (H := F2_nth _ _ _ (poly0, O) [] d HB). rewrite combine_length in H. assert (Hm : (d < Nat.min (length rhs) (length ns))%nat) by (rewrite HL, Nat.min_id; exact Hdd). specialize (H Hm). rewrite combine_nth' in H by congruence. unfold Q in H. cbn [fst snd] in H. rewrite Nos, Ngs by assumption. exact H. }
  assert (Hos : forall d, (d < length ns)%nat -> length (nth d os []) = k /\ Forall (fun n => (0 < n)%nat) (nth d os [])).
  { intros d Hdd. rewrite Nos by assumption. split.
    - rewrite pow_order_length. rewrite Forall_forall in Hr. apply Hr, nth_In. lia.
    - unfold pow_order. apply Forall_forall. intros n Hn. apply in_map_iff in Hn. destruct Hn as [m [<- _]]. rewrite Nat.add_1_r. apply Nat.lt_0_succ. }
  destruct (basis_products_ok k ns os gs bases Hk) as [prods [Ep HP]]; try assumption; [unfold gs; rewrite map_length; assumption|].
  set (OO := fold_left (fun acc o => map2 (fun a o => (a + (o - 1))%nat) acc o) os (tp_const k 1)) in *.
  assert (EO : fold_left (fun acc b => map2 (fun a o => (a + (o - 1))%nat) acc (p_order (hd poly0 b))) bases (tp_const (length (p_order (hd poly0 rhs))) 1%nat) = OO).
  { assert (Hk' : length (p_order (hd poly0 rhs)) = k). { destruct rhs as [|g rhs]; [unfold good_dim in Hd; fold ns in Hd; cbn in HL; lia|]. cbn [hd]. rewrite Forall_forall in Hr. apply (Hr g). left; reflexivity. }
    rewrite Hk'. unfold OO.
    assert (F : Forall2 (fun b o => p_order (hd poly0 b) = o) bases os).
    { apply (F2_nthI _ [] []); [congruence|]. intros d Hdd. rewrite LB in Hdd. destruct (HBd d Hdd) as [Hl Hi].
      assert (Hn : (0 < nth d ns O)%nat) by (rewrite Forall_forall in Hpos; apply Hpos, nth_In; assumption). destruct (Hi O Hn) as (_ & Ho & _). rewrite hd_nth0. exact Ho. }
    generalize (tp_const k 1). clear -F. induction F as [|b o bases os H F IH]; intros acc; [reflexivity|]. cbn [fold_left]. rewrite H. apply IH. }
  rewrite EO, Ep. cbn [bind].
  assert (Hall : forall t q, isP k q OO (Bt ns gs t) -> valid_poly q /\ p_order q = OO) by (intros t q (V & O' & _); split; assumption).
  assert (Hne : tp_all ns <> []).
  { assert (H := tp_size_pos _ Hpos). rewrite <- tp_all_length in H. destruct (tp_all ns); [cbn in H; lia|discriminate]. }
  assert (HOO : OO <> [] /\ Forall (fun n => (0 < n)%nat) OO /\ length OO = k).
  { destruct (tp_all ns) as [|t ts]; [congruence|]. inversion HP as [|? q ? ? Hq _]; subst. destruct Hq as ((V1 & V2 & _) & O' & L' & _). rewrite <- O'. split; [exact V1|split; [exact V2|congruence]]. }
  destruct HOO as (One & Opos & Lk).
  assert (Hl : Forall (fun qs : M_Poly.poly * R => valid_poly (fst qs) /\ p_order (fst qs) = OO) (combine prods (p_coefs lhs))).
  { apply Forall_forall. intros [q s] Hin. apply in_combine_l in Hin. cbn [fst]. clear -HP Hin Hall. induction HP as [|t q' ts qs H _ IH]; [destruct Hin|]. destruct Hin as [<- | Hin]; [apply (Hall t); assumption|apply IH; assumption]. }
  assert (Hacc := fun x (Hx : length x = k) => accumulate_ok k OO x Lk Hx One Opos (combine prods (p_coefs lhs)) (repeat 0 (tp_size OO)) (repeat_length _ _) Hl).
  destruct (Hacc (repeat 0 k) (repeat_length _ _)) as [LF _].
  destruct (make_poly_ok OO _ One Opos LF) as [-> Vr]. eexists. split; [reflexivity|]. split; [exact Vr|]. split; [exact Lk|]. intros x Hx.
  destruct (Hacc x Hx) as [_ ->]. rewrite bezier_zero by (congruence || (split; [assumption|split; [assumption|apply repeat_length]])). rewrite Rplus_0_l.
  rewrite bezier_tsum by (try assumption; rewrite map_length; assumption). fold ns. unfold tsum.
  assert (Hc : length (p_coefs lhs) = tp_size ns) by (destruct Vl as (_ & _ & H); exact H).
  transitivity (rsum (map (fun ct : R * list nat => fst ct * bern_term ns (map (fun g => bezier_eval g x) rhs) (snd ct)) (combine (p_coefs lhs) (tp_all ns)))); [|rewrite combine_coefs, map_map by assumption; reflexivity].
  assert (Lc : length (p_coefs lhs) = length (tp_all ns)) by (rewrite tp_all_length; assumption).
  revert Lc. generalize (p_coefs lhs). clear -HP Hx. induction HP as [|t q ts qs H _ IH]; intros [|c cs] Lc; try discriminate; [reflexivity|].
  cbn [combine map]. rewrite !rsum_cons. cbn [fst snd]. rewrite IH by (cbn in Lc; lia). f_equal. f_equal. destruct H as (_ & _ & _ & E). rewrite E by assumption. unfold Bt, gs. rewrite map_map. reflexivity.
Qed.
