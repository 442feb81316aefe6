(** Bezier product, order elevation, sums. *)
From Coq Require Import Reals List Lia Lra Binomial.
From Coquelicot Require Import Coquelicot.
From Verif Require Import M_Poly S_Poly S_Affine L_Real L_Point L_BBox L_TensorNat L_Poly L_Poly2 L_Poly3 L_Poly4 L_Poly5 L_Poly6.
Import ListNotations.
Local Close Scope Z_scope.
Local Open Scope R_scope.

Lemma make_poly_ok o c : o <> [] -> Forall (fun n => (0 < n)%nat) o -> length c = tp_size o -> make_poly o c = Ret (mk_poly o c) /\ valid_poly (mk_poly o c).
Proof.
  intros Hne Hpos HL. split; [|repeat split; assumption]. unfold make_poly, assert_. destruct (Nat.ltb_spec 0 (length o)); [|destruct o; [congruence|simpl in *; lia]].
  replace (forallb (fun n => (0 <? n)%nat) o) with true; [|symmetry; apply forallb_forall; intros n Hn; apply Nat.ltb_lt; rewrite Forall_forall in Hpos; apply Hpos; assumption].
  rewrite HL, Nat.eqb_refl. reflexivity.
Qed.
Lemma make_poly_inv o c p : make_poly o c = Ret p -> valid_poly p /\ p = mk_poly o c.
Proof.
  unfold make_poly, assert_. destruct (Nat.ltb_spec 0 (length o)) as [H0|]; [|discriminate]. destruct (forallb _ o) eqn:E; [|discriminate]. destruct (Nat.eqb_spec (tp_size o) (length c)) as [HL|]; [|discriminate].
  intros H. injection H as <-. split; [|reflexivity]. split; [destruct o; [simpl in H0; lia|discriminate]|]. split; [|symmetry; exact HL].
  rewrite Forall_forall. rewrite forallb_forall in E. intros n Hn. apply Nat.ltb_lt, E. assumption.
Qed.
Definition good_dim (p : M_Poly.poly) : Prop := (1 <= length (p_order p) <= 3)%nat.
Definition mterm (o : list nat) (x : list R) : list nat -> R := termp (fun d i => nth d x 0 ^ i * (1 - nth d x 0) ^ (nth d o O - 1 - i)) (length o).
Lemma binom_prod_termp o t : length t = length o -> binom_prod o t = termp (fun d i => binom (nth d o O - 1) i) (length o) t.
Proof. intros H. unfold binom_prod. rewrite fold_left_mul, Rmult_1_l, (prodl_map2 _ O O) by congruence. reflexivity. Qed.
Lemma bern_split o x t : length t = length o -> bern_term o x t = binom_prod o t * mterm o x t.
Proof. intros H. rewrite binom_prod_termp by assumption. unfold mterm. rewrite termp_mult. apply termp_ext. intros d _. unfold B. ring. Qed.
Lemma binom_prod_pos o t : In t (tp_all o) -> 0 < binom_prod o t.
Proof.
  intros Ht. apply tp_all_In in Ht. destruct Ht as [HL Hi]. rewrite binom_prod_termp by assumption. unfold termp.
  assert (G : forall l, (forall d, In d l -> (d < length o)%nat) -> 0 < prodl (map (fun d => binom (nth d o O - 1) (nth d t O)) l)).
  { induction l as [|d l IH]; intros Hl; [unfold prodl; simpl; lra|]. cbn [map]. rewrite prodl_cons. apply Rmult_lt_0_compat; [|apply IH; intros; apply Hl; right; assumption].
    apply binom_pos. specialize (Hi d (Hl d (or_introl eq_refl))). lia. }
  apply G. intros d Hd. apply in_seq in Hd. lia.
Qed.
Lemma aux_combine p : valid_poly p -> combine (aux_vector p) (tp_all (p_order p)) = map (fun t => (nth (tp_flat (p_order p) t) (p_coefs p) 0 * binom_prod (p_order p) t, t)) (tp_all (p_order p)).
Proof.
  intros (_ & _ & Hc). unfold aux_vector. rewrite map2_coefs by assumption. induction (tp_all (p_order p)) as [|t l IH]; [reflexivity|]. cbn [map combine]. rewrite IH. reflexivity.
Qed.
Lemma aux_sum p x : valid_poly p -> length x = length (p_order p) ->
  rsum (map (fun t => nth (tp_flat (p_order p) t) (p_coefs p) 0 * binom_prod (p_order p) t * mterm (p_order p) x t) (tp_all (p_order p))) = bezier_eval p x.
Proof.
  intros Hp Hx. rewrite bezier_tsum by assumption. apply rsum_ext. intros t Ht. apply tp_all_In in Ht. destruct Ht as [HL _]. rewrite bern_split by assumption. ring.
Qed.
Lemma product_order_length a b : length a = length b -> length (product_order a b) = length a.
Proof. intros H. unfold product_order. apply map2_length. assumption. Qed.
Lemma product_order_nth a b d : length a = length b -> (d < length a)%nat -> nth d (product_order a b) O = ((nth d a O - 1) + (nth d b O - 1) + 1)%nat.
Proof. intros H Hd. unfold product_order. rewrite (map2_nth _ a b d O O O) by assumption. reflexivity. Qed.
Definition tadd (t u : list nat) : list nat := map2 Nat.add t u.
Lemma tadd_in a b t u : length a = length b -> In t (tp_all a) -> In u (tp_all b) -> In (tadd t u) (tp_all (product_order a b)).
Proof.
  intros HL Ht Hu. apply tp_all_In in Ht, Hu. destruct Ht as [Lt It], Hu as [Lu Iu]. apply tp_all_In. rewrite product_order_length by assumption.
  split; [unfold tadd; rewrite map2_length; congruence|]. intros d Hd. rewrite product_order_nth by assumption. unfold tadd. rewrite (map2_nth _ _ _ d O O O) by congruence.
  specialize (It d Hd). specialize (Iu d ltac:(congruence)). lia.
Qed.
Lemma product_pos_flat o t u : (1 <= length o <= 3)%nat -> length t = length o -> length u = length o -> product_pos o t u = tp_flat o (tadd t u).
Proof.
  intros Ho Ht Hu. destruct o as [|o0 [|o1 [|o2 [|]]]]; cbn [length] in *; try lia;
    destruct t as [|t0 [|t1 [|t2 [|]]]]; try discriminate; destruct u as [|u0 [|u1 [|u2 [|]]]]; try discriminate; cbn; try lia; nia.
Qed.
Lemma mterm_mult a b x t u : length a = length b -> In t (tp_all a) -> In u (tp_all b) -> mterm (product_order a b) x (tadd t u) = mterm a x t * mterm b x u.
Proof.
  intros HL Ht Hu. apply tp_all_In in Ht, Hu. destruct Ht as [Lt It], Hu as [Lu Iu]. unfold mterm. rewrite product_order_length, <- HL by assumption.
  unfold termp. assert (G : forall l, (forall d, In d l -> (d < length a)%nat) ->
    prodl (map (fun d => nth d x 0 ^ nth d (tadd t u) O * (1 - nth d x 0) ^ (nth d (product_order a b) O - 1 - nth d (tadd t u) O)) l) =
    prodl (map (fun d => nth d x 0 ^ nth d t O * (1 - nth d x 0) ^ (nth d a O - 1 - nth d t O)) l) * prodl (map (fun d => nth d x 0 ^ nth d u O * (1 - nth d x 0) ^ (nth d b O - 1 - nth d u O)) l)).
  { induction l as [|d l IH]; intros Hl; [unfold prodl; simpl; ring|]. cbn [map]. rewrite !prodl_cons, IH by (intros; apply Hl; right; assumption).
    assert (Hd := Hl d (or_introl eq_refl)). rewrite product_order_nth by assumption. unfold tadd. rewrite (map2_nth _ t u d O O O) by congruence.
    specialize (It d Hd). specialize (Iu d ltac:(congruence)).
    replace (nth d a O - 1 + (nth d b O - 1) + 1 - 1 - (nth d t O + nth d u O))%nat with ((nth d a O - 1 - nth d t O) + (nth d b O - 1 - nth d u O))%nat by lia.
    rewrite !pow_add. ring. }
  apply G. intros d Hd. apply in_seq in Hd. lia.
Qed.
Lemma bezier_product_ok p q : valid_poly p -> valid_poly q -> length (p_order q) = length (p_order p) -> good_dim p ->
  exists r, bezier_product p q = Ret r /\ valid_poly r /\ p_order r = product_order (p_order p) (p_order q) /\
    forall x, length x = length (p_order p) -> bezier_eval r x = bezier_eval p x * bezier_eval q x.
Proof.
  intros Hp Hq HL Hd. set (a := p_order p) in *. set (b := p_order q) in *. set (o := product_order a b).
  assert (Lo : length o = length a) by (apply product_order_length; congruence).
  assert (One : o <> []) by (destruct o; [|discriminate]; destruct Hp as (Hne & _); fold a in Hne; destruct a; [congruence|discriminate]).
  assert (Opos : Forall (fun n => (0 < n)%nat) o).
  { rewrite Forall_forall. intros n Hn. apply (In_nth _ _ O) in Hn. destruct Hn as [d [H1 <-]]. unfold o. rewrite product_order_nth by (congruence || lia). lia. }
  unfold bezier_product. fold a b o. rewrite aux_combine by assumption. fold a. rewrite aux_combine by assumption. fold b.
  set (ca := map (fun t => (nth (tp_flat a t) (p_coefs p) 0 * binom_prod a t, t)) (tp_all a)). set (cb := map (fun t => (nth (tp_flat b t) (p_coefs q) 0 * binom_prod b t, t)) (tp_all b)). set (conv := fold_left (fun acc at_ => fold_left (fun acc bu => add_at acc (product_pos o (snd at_) (snd bu)) (fst at_ * fst bu)) cb acc) ca (repeat 0 (tp_size o))).
  assert (Hconv : forall g, length conv = tp_size o /\ dot conv (map g (tp_all o)) =
     rsum (map (fun t => rsum (map (fun u => (nth (tp_flat a t) (p_coefs p) 0 * binom_prod a t) * (nth (tp_flat b u) (p_coefs q) 0 * binom_prod b u) * g (tadd t u)) (tp_all b))) (tp_all a))).
  { intros g.
    set (l := flat_map (fun at_ => map (fun bu => (at_, bu)) cb) ca).
    assert (E : conv = fold_left (fun acc (z : (R * list nat) * (R * list nat)) => add_at acc (product_pos o (snd (fst z)) (snd (snd z))) (fst (fst z) * fst (snd z))) l (repeat 0 (tp_size o))).
    { unfold conv, l. generalize (repeat 0 (tp_size o)). clearbody ca cb. clear -o. induction ca as [|[w t] ca IH]; intros acc; [reflexivity|]. cbn [fold_left flat_map]. rewrite fold_left_app, IH. f_equal.
      clear IH. revert acc. induction cb as [|bu cb IHc]; intros acc; [reflexivity|]. cbn [fold_left map]. apply IHc. }
    assert (Hl : forall z, In z l -> In (snd (fst z)) (tp_all a) /\ In (snd (snd z)) (tp_all b)).
    { intros z Hz. unfold l in Hz. apply in_flat_map in Hz. destruct Hz as [w [H1 H2]]. apply in_map_iff in H2. destruct H2 as [v [<- H2]]. unfold ca in H1. unfold cb in H2. apply in_map_iff in H1, H2.
      destruct H1 as [t [<- H1]], H2 as [u [<- H2]]. split; assumption. }
    assert (Hpos : forall z, In z l -> product_pos o (snd (fst z)) (snd (snd z)) = tp_flat o (tadd (snd (fst z)) (snd (snd z)))).
    { intros z Hz. apply Hl in Hz. destruct Hz as [H1 H2]. apply tp_all_In in H1, H2. destruct H1, H2. apply product_pos_flat; [rewrite Lo; exact Hd|congruence|congruence]. }
    destruct (fold_add_dot (fun z : (R * list nat) * (R * list nat) => product_pos o (snd (fst z)) (snd (snd z))) (fun z => fst (fst z) * fst (snd z)) (map g (tp_all o)) l (repeat 0 (tp_size o))) as [FL FD].
    - rewrite repeat_length, map_length, tp_all_length. reflexivity.
    - intros z Hz. rewrite Hpos by assumption. rewrite map_length, tp_all_length. apply Hl in Hz. destruct Hz. apply tp_flat_in. apply tadd_in; congruence || assumption.
    - rewrite E. split; [rewrite FL, map_length, tp_all_length; reflexivity|]. rewrite FD, dot_repeat0, Rplus_0_l.
      rewrite (rsum_ext _ (fun z => fst (fst z) * fst (snd z) * g (tadd (snd (fst z)) (snd (snd z))))).
      2:{ intros z Hz. f_equal. rewrite Hpos by assumption. apply coef_map. apply Hl in Hz. destruct Hz. apply tadd_in; congruence || assumption. }
      unfold l. rewrite rsum_flat_map. unfold ca. rewrite map_map. apply rsum_ext. intros t Ht. unfold cb. rewrite !map_map. reflexivity. }
  assert (Lc : length conv = tp_size o) by apply (Hconv (fun _ => 0)).
  rewrite map2_coefs by assumption.
  destruct (make_poly_ok o (map (fun s => nth (tp_flat o s) conv 0 / binom_prod o s) (tp_all o)) One Opos) as [Mk Vr]; [rewrite map_length, tp_all_length; reflexivity|].
  eexists. split; [|split; [exact Vr|split; [reflexivity|]]].
  - unfold good_dim in Hd. fold a in Hd. destruct (length a) as [|[|[|[|n]]]]; try lia; exact Mk.
  - intros x Hx. rewrite bezier_tsum by (assumption || (cbn [p_order]; congruence)). cbn [p_order p_coefs]. rewrite tsum_map.
    transitivity (dot conv (map (mterm o x) (tp_all o))).
    + rewrite dot_tsum by assumption. unfold tsum. apply rsum_ext. intros s Hs. assert (Hb := binom_prod_pos o s Hs). apply tp_all_In in Hs. destruct Hs as [Ls _]. rewrite bern_split by assumption. field. lra.
    + destruct (Hconv (mterm o x)) as [_ ->]. rewrite <- (aux_sum p x), <- (aux_sum q x) by (assumption || (fold a b; congruence)). fold a b.
      rewrite <- rsum_scal_r. apply rsum_ext. intros t Ht. rewrite <- rsum_scal. apply rsum_ext. intros u Hu. unfold o. rewrite mterm_mult by (assumption || congruence). ring.
Qed.
Lemma make_const_ok o v : o <> [] -> Forall (fun n => (0 < n)%nat) o -> exists u, make_const o v = Ret u /\ valid_poly u /\ p_order u = o /\
  forall x, length x = length o -> bezier_eval u x = v.
Proof.
  intros Hne Hpos. destruct (make_poly_ok o (repeat v (tp_size o)) Hne Hpos) as [Mk V]; [apply repeat_length|]. eexists. split; [exact Mk|split; [exact V|split; [reflexivity|]]].
  intros x Hx. rewrite bezier_tsum by assumption. cbn [p_order p_coefs]. unfold tsum. rewrite (rsum_ext _ (fun t => v * bern_term o x t)).
  - rewrite rsum_scal, bern_sum by assumption. ring.
  - intros t Ht. f_equal. apply repeat_nth_lt. apply tp_flat_in. assumption.
Qed.
Lemma order_eqb_spec a b : order_eqb a b = true <-> a = b.
Proof. unfold order_eqb. destruct (list_eq_dec Nat.eq_dec a b); split; auto; discriminate. Qed.
Lemma forallb_combine a : forall b, length a = length b -> forallb (fun ab : nat * nat => (snd ab <=? fst ab)%nat) (combine a b) = true <-> forall d, (d < length b)%nat -> (nth d b O <= nth d a O)%nat.
Proof.
  induction a as [|x a IH]; intros [|y b] HL; try discriminate.
  - cbn. split; [intros _ d Hd; lia|reflexivity].
  - cbn [combine forallb fst snd length]. rewrite Bool.andb_true_iff, IH by (simpl in HL; lia). rewrite Nat.leb_le. split.
    + intros [H1 H2] [|d] Hd; [assumption|apply H2; lia].
    + intros H. split; [apply (H O); lia|intros d Hd; apply (H (S d)); lia].
Qed.
Lemma raise_order_ok p new : valid_poly p -> good_dim p -> length new = length (p_order p) -> (forall d, (d < length new)%nat -> (nth d (p_order p) O <= nth d new O)%nat) ->
  exists r, raise_order p new = Ret r /\ valid_poly r /\ p_order r = new /\ forall x, length x = length (p_order p) -> bezier_eval r x = bezier_eval p x.
Proof.
  intros Hp Hd HL Hle. unfold raise_order. destruct (order_eqb new (p_order p)) eqn:E.
  - apply order_eqb_spec in E. exists p. subst new. split; [reflexivity|split; [assumption|split; [reflexivity|reflexivity]]].
  - assert (HF : forallb (fun ab : nat * nat => (snd ab <=? fst ab)%nat) (combine new (p_order p)) = true) by (apply forallb_combine; [assumption|]; intros d Hdd; apply Hle; congruence).
    unfold assert_. rewrite HF.
    set (u := map2 (fun n o => (n - o + 1)%nat) new (p_order p)). assert (Lu : length u = length (p_order p)) by (unfold u; rewrite map2_length; assumption).
    assert (Nu : forall d, (d < length (p_order p))%nat -> nth d u O = (nth d new O - nth d (p_order p) O + 1)%nat) by (intros d Hdd; unfold u; rewrite (map2_nth _ _ _ d O O O) by congruence; reflexivity).
    destruct (make_const_ok u 1) as [uu (-> & Vu & Ou & Eu)].
    { destruct Hp as (Hne & _). destruct u; [destruct (p_order p); [congruence|discriminate]|discriminate]. }
    { rewrite Forall_forall. intros n Hn. apply (In_nth _ _ O) in Hn. destruct Hn as [d [H1 <-]]. rewrite Nu by congruence. lia. }
    cbn [bind]. destruct (bezier_product_ok p uu Hp Vu) as [r (Er & Vr & Or & Evr)]; [congruence|assumption|]. exists r. split; [exact Er|split; [exact Vr|split]].
    + rewrite Or, Ou. apply nth_ext with (d := O) (d' := O); [rewrite product_order_length; congruence|]. rewrite product_order_length by congruence. intros d Hdd.
      rewrite product_order_nth by congruence. rewrite Nu by congruence. destruct Hp as (_ & Hpos & _). assert (0 < nth d (p_order p) O)%nat by (rewrite Forall_forall in Hpos; apply Hpos, nth_In; assumption).
      specialize (Hle d ltac:(congruence)). lia.
    + intros x Hx. rewrite Evr, Eu by congruence. ring.
Qed.
Definition linear_op (op : R -> R -> R) : Prop := exists s, forall a b, op a b = a + s * b.
Lemma map2_op_eval op o c c' : linear_op op -> o <> [] -> Forall (fun n => (0 < n)%nat) o -> length c = tp_size o -> length c' = tp_size o ->
  forall x, length x = length o -> bezier_eval (mk_poly o (map2 op c c')) x = op (bezier_eval (mk_poly o c) x) (bezier_eval (mk_poly o c') x).
Proof.
  intros [s Hop] Hne Hpos Hc Hc' x Hx. assert (L2 : length (map2 op c c') = tp_size o) by (rewrite map2_length; congruence).
  rewrite !bezier_tsum by (try exact Hx; repeat split; assumption). cbn [p_order p_coefs]. rewrite Hop. unfold tsum. rewrite <- rsum_scal, <- rsum_plus. apply rsum_ext. intros t Ht.
  rewrite (map2_nth op c c' _ 0 0 0) by (rewrite ?Hc; congruence || apply tp_flat_in; assumption). rewrite Hop. ring.
Qed.
Lemma existsb_combine a : forall b, length a = length b -> existsb (fun ab : nat * nat => (fst ab <? snd ab)%nat) (combine a b) = false <-> forall d, (d < length b)%nat -> (nth d b O <= nth d a O)%nat.
Proof.
  induction a as [|x a IH]; intros [|y b] HL; try discriminate.
  - cbn. split; [intros _ d Hd; lia|reflexivity].
  - cbn [combine existsb fst snd length]. rewrite Bool.orb_false_iff, IH by (simpl in HL; lia). rewrite Nat.ltb_ge. split.
    + intros [H1 H2] [|d] Hd; [assumption|apply H2; lia].
    + intros H. split; [apply (H O); lia|intros d Hd; apply (H (S d)); lia].
Qed.
Lemma existsb_combine2 a : forall b, length a = length b -> existsb (fun ab : nat * nat => (snd ab <? fst ab)%nat) (combine a b) = false <-> forall d, (d < length b)%nat -> (nth d a O <= nth d b O)%nat.
Proof.
  induction a as [|x a IH]; intros [|y b] HL; try discriminate.
  - cbn. split; [intros _ d Hd; lia|reflexivity].
  - cbn [combine existsb fst snd length]. rewrite Bool.orb_false_iff, IH by (simpl in HL; lia). rewrite Nat.ltb_ge. split.
    + intros [H1 H2] [|d] Hd; [assumption|apply H2; lia].
    + intros H. split; [apply (H O); lia|intros d Hd; apply (H (S d)); lia].
Qed.
Lemma order_eqb_refl a : order_eqb a a = true. Proof. apply order_eqb_spec. reflexivity. Qed.
Lemma combine_same fuel op p q : linear_op op -> valid_poly p -> valid_poly q -> p_order q = p_order p ->
  exists r, bezier_combine fuel op p q = Ret r /\ valid_poly r /\ p_order r = p_order p /\ forall x, length x = length (p_order p) -> bezier_eval r x = op (bezier_eval p x) (bezier_eval q x).
Proof.
  intros Hop (Hne & Hpos & Hc) (_ & _ & Hc') HO. rewrite HO in Hc'.
  destruct (make_poly_ok (p_order p) (map2 op (p_coefs p) (p_coefs q)) Hne Hpos) as [Mk V]; [rewrite map2_length; congruence|].
  eexists. split; [|split; [exact V|split; [reflexivity|]]].
  - destruct fuel; cbn [bezier_combine]; rewrite HO, order_eqb_refl; exact Mk.
  - intros x Hx. rewrite map2_op_eval by assumption. destruct p as [o c], q as [o' c']. cbn [p_order p_coefs] in *. subst o'. reflexivity.
Qed.
Lemma nth_max a b d : length a = length b -> (d < length a)%nat -> nth d (map2 Nat.max a b) O = Nat.max (nth d a O) (nth d b O).
Proof. intros. rewrite (map2_nth _ a b d O O O) by assumption. reflexivity. Qed.
Lemma bezier_combine_ok op p q : linear_op op -> valid_poly p -> valid_poly q -> length (p_order q) = length (p_order p) -> good_dim p ->
  exists r, bezier_combine 1 op p q = Ret r /\ valid_poly r /\ p_order r = map2 Nat.max (p_order q) (p_order p) /\
    forall x, length x = length (p_order p) -> bezier_eval r x = op (bezier_eval p x) (bezier_eval q x).
Proof.
  intros Hop Hp Hq HL Hd.
  assert (Hmax : forall o1 o2 o, length o1 = length o2 -> length o = length o1 -> (forall d, (d < length o)%nat -> nth d o O = Nat.max (nth d o1 O) (nth d o2 O)) -> o = map2 Nat.max o1 o2).
  { intros o1 o2 o L1 L2 H. apply nth_ext with (d := O) (d' := O); [rewrite map2_length; congruence|]. intros d Hdd. rewrite nth_max by congruence. apply H. assumption. }
  destruct (order_eqb (p_order q) (p_order p)) eqn:E0.
  - assert (HO := proj1 (order_eqb_spec _ _) E0). destruct (combine_same 1 op p q Hop Hp Hq HO) as [r (E & V & Or & Ev)]. exists r. split; [exact E|split; [exact V|split; [|exact Ev]]].
    rewrite Or. apply Hmax; try congruence. intros d _. rewrite HO, Nat.max_id. reflexivity.
  - cbn [bezier_combine]. rewrite E0.
    destruct (existsb (fun ab => (fst ab <? snd ab)%nat) (combine (p_order q) (p_order p))) eqn:E1; cbn [negb].
    + destruct (existsb (fun ab => (snd ab <? fst ab)%nat) (combine (p_order q) (p_order p))) eqn:E2; cbn [negb].
      * set (new := map2 Nat.max (p_order q) (p_order p)). assert (Ln : length new = length (p_order p)) by (unfold new; rewrite map2_length; congruence).
        destruct (raise_order_ok p new Hp Hd Ln) as [p' (Ep & Vp & Op & Evp)]; [intros d Hdd; unfold new; rewrite nth_max by congruence; lia|].
        destruct (raise_order_ok q new Hq) as [q' (Eq & Vq & Oq & Evq)]; [unfold good_dim in *; congruence|congruence|intros d Hdd; unfold new; rewrite nth_max by congruence; lia|].
        rewrite Ep. cbn [bind]. rewrite Eq. cbn [bind]. destruct (combine_same 0 op p' q' Hop Vp Vq) as [r (E & V & Or & Ev)]; [congruence|].
        exists r. split; [exact E|split; [exact V|split; [congruence|]]]. intros x Hx. rewrite Ev by congruence. rewrite Evp, Evq by congruence. reflexivity.
      * assert (H2 := proj1 (existsb_combine2 _ _ HL) E2). destruct (raise_order_ok q (p_order p) Hq) as [q' (Eq & Vq & Oq & Evq)]; [unfold good_dim in *; congruence|congruence|assumption|].
        rewrite Eq. cbn [bind]. destruct (combine_same 0 op p q' Hop Hp Vq) as [r (E & V & Or & Ev)]; [congruence|].
        exists r. split; [exact E|split; [exact V|split; [|]]].
        -- rewrite Or. apply Hmax; try congruence. intros d Hdd. specialize (H2 d Hdd). lia.
        -- intros x Hx. rewrite Ev, Evq by congruence. reflexivity.
    + assert (H1 := proj1 (existsb_combine _ _ HL) E1). destruct (raise_order_ok p (p_order q) Hp Hd HL) as [p' (Ep & Vp & Op & Evp)]; [intros d Hdd; apply H1; congruence|].
      rewrite Ep. cbn [bind]. destruct (combine_same 0 op p' q Hop Vp Hq) as [r (E & V & Or & Ev)]; [congruence|].
      exists r. split; [exact E|split; [exact V|split; [|]]].
      * rewrite Or, Op. apply Hmax; try congruence. intros d Hdd. assert (d < length (p_order p))%nat by congruence. specialize (H1 d H). lia.
      * intros x Hx. rewrite Ev by congruence. rewrite Evp by assumption. reflexivity.
Qed.
(** affine changes of the coefficients *)
Lemma bezier_affine p h s b x : (forall c, h c = s * c + b) -> valid_poly p -> length x = length (p_order p) ->
  valid_poly (mk_poly (p_order p) (map h (p_coefs p))) /\ bezier_eval (mk_poly (p_order p) (map h (p_coefs p))) x = s * bezier_eval p x + b.
Proof.
  intros Hh Hp Hx. assert (Hp' := Hp). destruct Hp' as (Hne & Hpos & Hc).
  assert (V : valid_poly (mk_poly (p_order p) (map h (p_coefs p)))) by (repeat split; cbn [p_order p_coefs]; try assumption; rewrite map_length; assumption).
  split; [exact V|]. rewrite !bezier_tsum by assumption. cbn [p_order p_coefs]. unfold tsum. set (o := p_order p) in *.
  rewrite <- (Rmult_1_r b), <- (bern_sum o x) by assumption. rewrite <- !rsum_scal, <- rsum_plus. apply rsum_ext. intros t Ht.
  assert (Hf : (tp_flat o t < length (p_coefs p))%nat) by (rewrite Hc; apply tp_flat_in; assumption).
  rewrite (nth_indep _ 0 (h 0)) by (rewrite map_length; assumption). rewrite (map_nth h), Hh. ring.
Qed.
