From Coq Require Import Reals List Lia Lra Bool.
From Coquelicot Require Import Coquelicot.
From Verif Require Import M_Funcs S_Affine S_Funcs L_Real L_Affine L_Deriv L_Tpms L_Funcs.
Import ListNotations.
Open Scope R_scope.

(** ** Chain rule *)
Lemma tp_len dim B p : (dim = 2 \/ dim = 3)%nat -> length (transform_point dim B p) = dim.
Proof. intros [-> | ->]; reflexivity. Qed.
Lemma chain_grad2 B (f : list R -> R) p g : length p = 2%nat ->
  has_gradient 2 f (transform_point 2 B p) g -> has_gradient 2 (fun q => f (transform_point 2 B q)) p (transform_vector 2 B g).
Proof.
  intros Hp H. assert (Lg : length g = 2%nat) by apply H. dest2. unfold transform_vector, vx. cbn [nth]. unfold transform_point, vx in H. cbn [nth] in H.
  apply hg2. intros X Y dx dy HX HY DX DY. unfold transform_point, vx. cbn [nth].
  apply is_derive_ext with (f := fun t => f [nth 0 B 0 * X t + nth 1 B 0 * Y t + nth 4 B 0; nth 2 B 0 * X t + nth 3 B 0 * Y t + nth 5 B 0]); [reflexivity|].
  match goal with |- is_derive _ _ ?v => replace v with (x * (nth 0 B 0 * dx + nth 1 B 0 * dy) + y * (nth 2 B 0 * dx + nth 3 B 0 * dy)) by ring end.
  apply (hg2_elim _ _ _ _ _ H (fun t => nth 0 B 0 * X t + nth 1 B 0 * Y t + nth 4 B 0) (fun t => nth 2 B 0 * X t + nth 3 B 0 * Y t + nth 5 B 0));
    [rewrite HX, HY; reflexivity|rewrite HX, HY; reflexivity|curve_step; ring|curve_step; ring].
Qed.
Lemma chain_grad3 B (f : list R -> R) p g : length p = 3%nat ->
  has_gradient 3 f (transform_point 3 B p) g -> has_gradient 3 (fun q => f (transform_point 3 B q)) p (transform_vector 3 B g).
Proof.
  intros Hp H. assert (Lg : length g = 3%nat) by apply H. dest3. unfold transform_vector, vx. cbn [nth]. unfold transform_point, vx in H. cbn [nth] in H.
  apply hg3. intros X Y Z dx dy dz HX HY HZ DX DY DZ. unfold transform_point, vx. cbn [nth].
  match goal with |- is_derive _ _ ?v => replace v with (x * (nth 0 B 0 * dx + nth 1 B 0 * dy + nth 2 B 0 * dz) + y * (nth 3 B 0 * dx + nth 4 B 0 * dy + nth 5 B 0 * dz)
     + z * (nth 6 B 0 * dx + nth 7 B 0 * dy + nth 8 B 0 * dz)) by ring end.
  apply (hg3_elim _ _ _ _ _ _ _ H (fun t => nth 0 B 0 * X t + nth 1 B 0 * Y t + nth 2 B 0 * Z t + nth 9 B 0)
    (fun t => nth 3 B 0 * X t + nth 4 B 0 * Y t + nth 5 B 0 * Z t + nth 10 B 0) (fun t => nth 6 B 0 * X t + nth 7 B 0 * Y t + nth 8 B 0 * Z t + nth 11 B 0));
    try (rewrite HX, HY, HZ; reflexivity); curve_step; ring.
Qed.
Lemma chain_grad dim B f p g : (dim = 2 \/ dim = 3)%nat -> length p = dim ->
  has_gradient dim f (transform_point dim B p) g -> has_gradient dim (fun q => f (transform_point dim B q)) p (transform_vector dim B g).
Proof. intros [-> | ->]; [apply chain_grad2|apply chain_grad3]. Qed.
(** Linear combinations. *)
Lemma sum_scal (k : R) (f : nat -> R) l : fold_right Rplus 0 (map (fun i => k * f i) l) = k * fold_right Rplus 0 (map f l).
Proof. induction l as [|j l IH]; cbn [map fold_right]; [ring|rewrite IH; ring]. Qed.
Lemma hg_scale d k f p g : has_gradient d f p g -> has_gradient d (fun q => k * f q) p (map (Rmult k) g).
Proof.
  intros [L H]. split; [rewrite map_length; auto|]. intros c dc H0 Hd.
  rewrite (sum_ext_nat _ _ (fun i => k * (nth i g 0 * dc i))); [|intros i; rewrite (map_nth0 (Rmult k)) by ring; ring].
  replace (fold_right Rplus 0 (map (fun i => k * (nth i g 0 * dc i)) (seq 0 d))) with (k * fold_right Rplus 0 (map (fun i => nth i g 0 * dc i) (seq 0 d))).
  - apply (is_derive_scal (fun t => f (map (fun i => c i t) (seq 0 d)))). apply H; auto.
  - symmetry. apply sum_scal.
Qed.
Lemma chain_hess2 B f p h : length p = 2%nat ->
  has_hessian 2 f (transform_point 2 B p) h -> has_hessian 2 (fun q => f (transform_point 2 B q)) p (transform_tensor 2 B h).
Proof.
  intros Hp (L & G & HG & Hr). split; [reflexivity|]. exists (fun q => transform_vector 2 B (G (transform_point 2 B q))). split.
  { intros q Hq. apply chain_grad2; auto. }
  pose proof (chain_grad2 B _ p _ Hp (Hr 0%nat ltac:(lia))) as H0. pose proof (chain_grad2 B _ p _ Hp (Hr 1%nat ltac:(lia))) as H1.
  change (2 * (2 + 1) / 2)%nat with 3%nat in L. destruct (len3 h L) as (a & b & c & ->).
  rows2.
  - pose proof (hg_add _ _ _ _ _ _ (hg_scale _ (nth 0 B 0) _ _ _ H0) (hg_scale _ (nth 2 B 0) _ _ _ H1)) as A. cbv beta in A.
    cbn [map2 map seq sym_pos Nat.min Nat.max nth transform_vector] in A. unfold vx in A. cbn [nth] in A.
    match type of A with has_gradient _ _ _ ?u => match goal with |- has_gradient _ _ _ ?v => replace v with u; [exact A|] end end.
    unfold transform_tensor, vx. cbv zeta. cbn [nth]. list_eq ltac:(ring).
  - pose proof (hg_add _ _ _ _ _ _ (hg_scale _ (nth 1 B 0) _ _ _ H0) (hg_scale _ (nth 3 B 0) _ _ _ H1)) as A. cbv beta in A.
    cbn [map2 map seq sym_pos Nat.min Nat.max nth transform_vector] in A. unfold vx in A. cbn [nth] in A.
    match type of A with has_gradient _ _ _ ?u => match goal with |- has_gradient _ _ _ ?v => replace v with u; [exact A|] end end.
    unfold transform_tensor, vx. cbv zeta. cbn [nth]. list_eq ltac:(ring).
Qed.
Ltac hess3_row H0 H1 H2 B a b c :=
  let A := fresh "A" in
  pose proof (hg_add _ _ _ _ _ _ (hg_add _ _ _ _ _ _ (hg_scale _ (nth a B 0) _ _ _ H0) (hg_scale _ (nth b B 0) _ _ _ H1)) (hg_scale _ (nth c B 0) _ _ _ H2)) as A; cbv beta in A;
    cbn [map2 map seq sym_pos Nat.min Nat.max Nat.add nth transform_vector] in A; unfold vx in A; cbn [nth] in A;
    match type of A with has_gradient _ _ _ ?u => match goal with |- has_gradient _ _ _ ?v => replace v with u; [exact A|] end end;
    unfold transform_tensor, vx; cbv zeta; cbn [nth]; list_eq ltac:(ring).
Lemma chain_hess3 B f p h : length p = 3%nat ->
  has_hessian 3 f (transform_point 3 B p) h -> has_hessian 3 (fun q => f (transform_point 3 B q)) p (transform_tensor 3 B h).
Proof.
  intros Hp (L & G & HG & Hr). split; [reflexivity|]. exists (fun q => transform_vector 3 B (G (transform_point 3 B q))). split.
  { intros q Hq. apply chain_grad3; auto. }
  pose proof (chain_grad3 B _ p _ Hp (Hr 0%nat ltac:(lia))) as H0. pose proof (chain_grad3 B _ p _ Hp (Hr 1%nat ltac:(lia))) as H1.
  pose proof (chain_grad3 B _ p _ Hp (Hr 2%nat ltac:(lia))) as H2. clear HG Hr.
  change (3 * (3 + 1) / 2)%nat with 6%nat in L. destruct (len6 h L) as (a & b & c & d & e & g & ->).
  rows3; [hess3_row H0 H1 H2 B 0%nat 3%nat 6%nat|hess3_row H0 H1 H2 B 1%nat 4%nat 7%nat|hess3_row H0 H1 H2 B 2%nat 5%nat 8%nat].
Qed.
Lemma transformed_body dim base T : (dim = 2 \/ dim = 3)%nat -> length T = (dim * (dim + 1))%nat -> default_tol < Rabs (aff_det dim T) ->
  exists f, transformed dim base T = Ret f /\
    (forall q, length q = dim -> fval f (affine dim T q) = fval base q) /\
    (forall q, length q = dim -> has_gradient dim (fval base) q (fgrad base q) -> has_gradient dim (fval f) (affine dim T q) (fgrad f (affine dim T q))) /\
    (forall q, length q = dim -> has_hessian dim (fval base) q (fhess base q) -> has_hessian dim (fval f) (affine dim T q) (fhess f (affine dim T q))).
Proof.
  intros Hd HT Ht. destruct (C36_inv_body dim T (repeat 0 dim) Hd HT (repeat_length _ _) Ht) as (B & HB & _).
  unfold transformed, with_transf. rewrite HB. cbn [bind]. eexists. split; [reflexivity|]. cbn [fval fgrad fhess].
  assert (E : forall q, length q = dim -> transform_point dim B (affine dim T q) = q).
  { intros q Hq. destruct (C36_inv_body dim T q Hd HT Hq Ht) as (B' & HB' & E & _). rewrite HB in HB'. injection HB' as <-.
    rewrite <- transform_point_spec by auto. exact E. }
  assert (La : forall q, length (affine dim T q) = dim) by (intros; unfold affine; rewrite map_length, seq_length; auto).
  split; [|split].
  - intros q Hq. rewrite E; auto.
  - intros q Hq H. apply (chain_grad dim B (fval base)); auto. rewrite E; auto.
  - intros q Hq H. destruct Hd as [-> | ->]; [apply (chain_hess2 B (fval base))|apply (chain_hess3 B (fval base))]; auto; rewrite E; auto.
Qed.
(** ** Square *)
Lemma fold_rmax l : forall m, let r := fold_left (fun m y => if Rltb m y then y else m) l m in m <= r /\ (forall y, In y l -> y <= r) /\ (r = m \/ In r l).
Proof.
  induction l as [|a l IH]; intros m; cbn [fold_left]; [simpl; repeat split; try lra; tauto|].
  destruct (IH (if Rltb m a then a else m)) as (A & B & C). set (r := fold_left _ _ _) in *. cbv zeta.
  destruct (Rltb m a) eqn:E; [apply Rltb_true in E|apply Rltb_false in E].
  - repeat split; try lra. + intros y [<-|Hy]; auto. + right. destruct C as [->|C]; [left|right]; auto.
  - repeat split; try lra. + intros y [<-|Hy]; auto. lra. + destruct C as [->|C]; [left|right; right]; auto.
Qed.
Lemma rmax_in l : l <> [] -> In (rmax_list l) l /\ forall y, In y l -> y <= rmax_list l.
Proof.
  destruct l as [|a l]; intros H; [congruence|]. unfold rmax_list. destruct (fold_rmax l a) as (A & B & C). split.
  - destruct C as [->|C]; [left|right]; auto.
  - intros y [<-|Hy]; auto.
Qed.
Lemma rmax_nth l i : (i < length l)%nat -> (forall j, (j < length l)%nat -> nth j l 0 <= nth i l 0) -> rmax_list l = nth i l 0.
Proof.
  intros Hi H. destruct (rmax_in l) as [A B]; [destruct l; simpl in *; [lia|discriminate]|].
  apply Rle_antisym.
  - apply (In_nth _ _ 0) in A as (j & Hj & <-). auto.
  - apply B. apply nth_In; auto.
Qed.
Lemma rargmax_from_spec l : forall best bi i, let r := rargmax_from best bi i l in
  (r = bi /\ (forall j, (j < length l)%nat -> nth j l 0 <= best)) \/
  (exists k, r = (i + k)%nat /\ (k < length l)%nat /\ best < nth k l 0 /\ forall j, (j < length l)%nat -> nth j l 0 <= nth k l 0).
Proof.
  induction l as [|a l IH]; intros best bi i; cbn [rargmax_from length].
  - left. split; auto. intros; lia.
  - destruct (Rltb best a) eqn:E; [apply Rltb_true in E|apply Rltb_false in E].
    + right. destruct (IH a i (S i)) as [[-> A] | (k & -> & Hk & A & B)].
      * exists O. repeat split; try lia; auto. intros [|j] Hj; simpl; [lra|]. apply A. lia.
      * exists (S k). repeat split; try lia; simpl; [lra|]. intros [|j] Hj; [simpl; lra|]. apply B. lia.
    + destruct (IH best bi (S i)) as [[-> A] | (k & -> & Hk & A & B)].
      * left. split; auto. intros [|j] Hj; simpl; auto. apply A. lia.
      * right. exists (S k). repeat split; try lia; simpl; auto. intros [|j] Hj; [simpl; lra|]. apply B. lia.
Qed.
Lemma rargmax_unique l i : (i < length l)%nat -> (forall j, (j < length l)%nat -> j <> i -> nth j l 0 < nth i l 0) -> rargmax l = i.
Proof.
  intros Hi H. destruct l as [|a l]; [simpl in Hi; lia|]. unfold rargmax.
  destruct (rargmax_from_spec l a O 1) as [[-> A] | (k & -> & Hk & A & B)].
  - destruct i as [|i]; auto. exfalso. specialize (H O). simpl in *. specialize (A i). assert (a < nth i l 0) by (apply H; lia). assert (nth i l 0 <= a) by (apply A; lia). lra.
  - destruct (Nat.eq_dec (1 + k) i) as [->|N]; auto. exfalso. specialize (H (1 + k)%nat). simpl in *.
    assert (nth k l 0 < match i with 0%nat => a | S m => nth m l 0 end) by (apply H; lia).
    destruct i as [|i]; [lra|]. assert (nth i l 0 <= nth k l 0) by (apply B; lia). lra.
Qed.
Lemma square_sign dim p : p <> [] -> (fval (square dim) p < 0 <-> Forall (fun x => -1 < x < 1) p) /\
  (fval (square dim) p = 0 <-> Forall (fun x => -1 <= x <= 1) p /\ Exists (fun x => x = 1 \/ x = -1) p).
Proof.
  intros Hp. cbn [fval square]. destruct (rmax_in (map (fun x => Rabs x - 1) p)) as [A B]; [destruct p; simpl; congruence|].
  set (m := rmax_list _) in *. assert (B' : forall x, In x p -> Rabs x - 1 <= m) by (intros x Hx; apply B; apply in_map_iff; eauto).
  apply in_map_iff in A as (x0 & E & Hx0). split; split.
  - intros H. apply Forall_forall. intros x Hx. specialize (B' x Hx). destruct (Rabs_def2 x 1); lra.
  - intros H. rewrite Forall_forall in H. specialize (H x0 Hx0). rewrite <- E. assert (Rabs x0 < 1) by (apply Rabs_def1; lra). lra.
  - intros H. split.
    + apply Forall_forall. intros x Hx. specialize (B' x Hx). pose proof (Rle_abs x). pose proof (Rle_abs (- x)). rewrite Rabs_Ropp in *. lra.
    + apply Exists_exists. exists x0. split; auto. assert (Q : Rabs x0 = 1) by lra. unfold Rabs in Q. destruct (Rcase_abs x0); lra.
  - intros [H1 H2]. rewrite Forall_forall in H1. apply Exists_exists in H2 as (x & Hx & Q). specialize (B' x Hx).
    assert (Rabs x = 1) by (unfold Rabs; destruct (Rcase_abs x); lra).
    specialize (H1 x0 Hx0). assert (Rabs x0 <= 1) by (apply Rabs_le; lra). lra.
Qed.
Lemma sum_single (v : nat -> R) i d : (i < d)%nat -> fold_right Rplus 0 (map (fun j => if Nat.eqb j i then v j else 0) (seq 0 d)) = v i.
Proof.
  intros Hi. assert (Q : forall k s, fold_right Rplus 0 (map (fun j => if Nat.eqb j i then v j else 0) (seq s k)) = if (Nat.leb s i && Nat.ltb i (s + k))%bool then v i else 0).
  { induction k as [|k IH]; intros s; cbn [seq map fold_right].
    - destruct (Nat.leb_spec s i), (Nat.ltb_spec i (s + 0)); simpl; auto; lia.
    - rewrite IH. destruct (Nat.eqb_spec s i) as [->|Hs].
      + destruct (Nat.leb_spec (S i) i); [lia|]. cbn [andb]. destruct (Nat.leb_spec i i), (Nat.ltb_spec i (i + S k)); try lia. cbn [andb]. ring.
      + destruct (Nat.leb_spec (S s) i), (Nat.leb_spec s i), (Nat.ltb_spec i (S s + k)), (Nat.ltb_spec i (s + S k)); try lia; cbn [andb]; ring. }
  rewrite Q. destruct (Nat.leb_spec 0 i), (Nat.ltb_spec i (0 + d)); try lia. reflexivity.
Qed.
Lemma loc_all (P : nat -> R -> Prop) x l : (forall i, In i l -> locally x (P i)) -> locally x (fun t => forall i, In i l -> P i t).
Proof.
  induction l as [|a l IH]; intros H.
  - apply filter_forall. intros t i [].
  - assert (A : locally x (P a)) by (apply H; left; auto). assert (B : locally x (fun t => forall i, In i l -> P i t)) by (apply IH; intros; apply H; right; auto).
    generalize (filter_and _ _ A B). apply filter_imp. intros t [U V] i [<-|Hi]; auto.
Qed.
Lemma derive_cont (f : R -> R) x l : is_derive f x l -> continuous f x.
Proof. intros H. apply (ex_derive_continuous f x). exists l. exact H. Qed.
Lemma cont_lt (f g : R -> R) x : continuous f x -> continuous g x -> f x < g x -> locally x (fun t => f t < g t).
Proof.
  intros Hf Hg H. assert (C : continuous (fun t => minus (g t) (f t)) x) by (apply (continuous_minus g f); auto).
  assert (P : locally (minus (g x) (f x)) (fun y => 0 < y)) by (apply (open_gt 0); unfold minus, plus, opp; simpl; lra).
  pose proof (C _ P) as Q. unfold filtermap in Q. revert Q. apply filter_imp. intros t. unfold minus, plus, opp. simpl. lra.
Qed.
Lemma square_grad dim p i : length p = dim -> (i < dim)%nat -> nth i p 0 <> 0 ->
  (forall j, (j < dim)%nat -> j <> i -> Rabs (nth j p 0) < Rabs (nth i p 0)) ->
  has_gradient dim (fval (square dim)) p (fgrad (square dim) p).
Proof.
  intros Hp Hi Hn Hmax. set (h := fun x => Rabs x - 1).
  assert (Nn : forall l j, (j < length l)%nat -> nth j (map h l) 0 = h (nth j l 0)).
  { intros l j Hj. rewrite (nth_indep _ 0 (h 0)) by (rewrite map_length; auto). apply map_nth. }
  assert (Ea : rargmax (map (fun x => Rabs x - 1) p) = i).
  { apply rargmax_unique; rewrite map_length; [lia|]. intros j Hj Hji. fold h. rewrite !Nn by lia. unfold h. specialize (Hmax j ltac:(lia) Hji). lra. }
  cbn [fval fgrad square]. rewrite Ea. split; [rewrite map_length, seq_length; auto|]. intros c dc H0 Hd.
  set (q := fun t => map (fun j => c j t) (seq 0 dim)).
  assert (Lq : forall t, length (q t) = dim) by (intros; unfold q; rewrite map_length, seq_length; auto).
  assert (Nq : forall t j, (j < dim)%nat -> nth j (q t) 0 = c j t).
  { intros t j Hj. unfold q. rewrite (nth_indep _ 0 ((fun j => c j t) O)) by (rewrite map_length, seq_length; auto). rewrite (map_nth (fun j => c j t)). rewrite seq_nth by auto. reflexivity. }
  assert (S1 : fold_right Rplus 0 (map (fun i0 => nth i0 (map (fun d => if Nat.eqb d i then sgn (vx p i) else 0) (seq 0 dim)) 0 * dc i0) (seq 0 dim)) = sgn (nth i p 0) * dc i).
  { rewrite <- (sum_single (fun j => sgn (nth i p 0) * dc j) i dim Hi). f_equal. apply map_ext_in. intros j Hj. apply in_seq in Hj.
    rewrite (nth_indep _ 0 ((fun d => if Nat.eqb d i then sgn (vx p i) else 0) O)) by (rewrite map_length, seq_length; lia).
    rewrite (map_nth (fun d => if Nat.eqb d i then sgn (vx p i) else 0)). rewrite seq_nth by lia. unfold vx. cbn [Nat.add]. destruct (Nat.eqb j i); ring. }
  rewrite S1. clear S1.
  assert (Ci : forall j, (j < dim)%nat -> continuous (c j) 0) by (intros j Hj; apply (derive_cont _ _ (dc j)); auto).
  assert (Ab : forall j, (j < dim)%nat -> continuous (fun t => Rabs (c j t)) 0) by (intros j Hj; apply (continuous_comp (c j) Rabs); [auto|apply continuous_Rabs]).
  assert (L1 : locally 0 (fun t => forall j, In j (seq 0 dim) -> j <> i -> Rabs (c j t) < Rabs (c i t))).
  { apply loc_all. intros j Hj. apply in_seq in Hj. destruct (Nat.eq_dec j i) as [->|N]; [apply filter_forall; intros; congruence|].
    generalize (cont_lt _ _ 0 (Ab j ltac:(lia)) (Ab i Hi)). intros K. assert (K' : Rabs (c j 0) < Rabs (c i 0)) by (rewrite !H0 by lia; apply Hmax; auto; lia).
    generalize (K K'). apply filter_imp. auto. }
  assert (L2 : locally 0 (fun t => 0 < sgn (nth i p 0) * c i t)).
  { assert (K : 0 < sgn (nth i p 0) * c i 0). { rewrite H0 by auto. unfold sgn. destruct (Rltb 0 (nth i p 0)) eqn:E1, (Rltb (nth i p 0) 0) eqn:E2;
      rewrite ?Rltb_true, ?Rltb_false in *; lra. }
    apply (cont_lt (fun _ => 0) (fun t => sgn (nth i p 0) * c i t)); [apply continuous_const| |exact K]. apply (continuous_mult (fun _ => sgn (nth i p 0)) (c i)); [apply continuous_const|auto]. }
  apply (is_derive_ext_loc (fun t => sgn (nth i p 0) * c i t - 1)).
  - generalize (filter_and _ _ L1 L2). apply filter_imp. intros t [A B]. symmetry. fold (q t). fold h. rewrite (rmax_nth _ i).
    + rewrite Nn, Nq by (rewrite ?Lq; auto). unfold h.
      assert (Q : Rabs (c i t) = sgn (nth i p 0) * c i t).
      { revert B. unfold sgn. destruct (Rltb 0 (nth i p 0)) eqn:E1, (Rltb (nth i p 0) 0) eqn:E2; rewrite ?Rltb_true, ?Rltb_false in *; intros B; try lra.
        - rewrite Rabs_pos_eq; lra. - rewrite Rabs_left1; lra. }
      lra.
    + rewrite map_length, Lq; auto.
    + intros j Hj. rewrite map_length, Lq in Hj. rewrite !Nn, !Nq by (rewrite ?Lq; auto). unfold h.
      destruct (Nat.eq_dec j i) as [->|N]; [lra|]. specialize (A j). rewrite in_seq in A. specialize (A ltac:(lia) N). lra.
  - pose proof (Hd i Hi) as DD. apply (is_derive_ext (fun t => sgn (nth i p 0) * (c i) t - 1)); [reflexivity|].
    generalize (sgn (nth i p 0)). intros k.
    replace (k * dc i) with (k * dc i - 0) by ring. apply (is_derive_minus (fun t => k * c i t) (fun _ => 1)); [apply (is_derive_scal (c i)); exact DD|apply (is_derive_const 1)].
Qed.
(** ** DimLinear interpolates its corner values *)
Lemma dl_corner2 cf bx by_ : fval (dim_linear 2 cf) [INR bx; INR by_] = nth (bx + 2 * by_) cf 0 \/ ~ (bx <= 1 /\ by_ <= 1)%nat.
Proof.
  destruct bx as [|[|bx]]; [| |right; lia]; (destruct by_ as [|[|by_]]; [left|left|right; lia]); cbn [fval dim_linear INR Nat.mul Nat.add]; unfold vx; cbn [nth]; ring.
Qed.
Lemma dl_corner3 cf bx by_ bz : fval (dim_linear 3 cf) [INR bx; INR by_; INR bz] = nth (bx + 2 * by_ + 4 * bz) cf 0 \/ ~ (bx <= 1 /\ by_ <= 1 /\ bz <= 1)%nat.
Proof.
  destruct bx as [|[|bx]]; [| |right; lia]; (destruct by_ as [|[|by_]]; [| |right; lia]); (destruct bz as [|[|bz]]; [left|left|right; lia]);
    cbn [fval dim_linear INR Nat.mul Nat.add]; unfold vx; cbn [nth]; ring.
Qed.
