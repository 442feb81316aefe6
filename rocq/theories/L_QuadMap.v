From Verif Require Import M_Quad S_Quad L_Real L_BBox L_QuadTP.
From Coq Require Import Lra.
Open Scope R_scope.

Lemma fold_mult_acc l : forall a, fold_left Rmult l a = a * fold_left Rmult l 1.
Proof. induction l as [|x l IH]; intros a; simpl; [ring|]. rewrite IH, (IH (1 * x)). ring. Qed.
Lemma fold_mult_pos l : (forall x, In x l -> 0 < x) -> 0 < fold_left Rmult l 1.
Proof.
  induction l as [|x l IH]; intros H; simpl; [lra|]. rewrite fold_mult_acc. apply Rmult_lt_0_compat; [|apply IH; intros; apply H; right; auto].
  specialize (H x (or_introl eq_refl)). lra.
Qed.
Lemma volume_pos b : positive_box (bmin b) (bmax b) -> 0 < box_volume b.
Proof.
  intros [Hl Hp]. apply fold_mult_pos. intros x Hx. apply In_nth with (d := 0) in Hx as (d & Hd & <-).
  rewrite lengths_len in Hd by auto. rewrite lengths_nth by auto. specialize (Hp d Hd). lra.
Qed.
Lemma back01 b p : positive_box (bmin b) (bmax b) -> length p = length (bmin b) -> scale_from_01 b (scale_to_01 b p) = p.
Proof. intros Hb Hp. apply (C34_lemma b b p); auto. Qed.

Lemma integ_change (q : rule) (h : list R -> list R) v F G : v <> 0 -> (forall nw, In nw q -> F (h (fst nw)) = G (fst nw)) ->
  integ (map (fun nw => (h (fst nw), snd nw / v)) q) F * v = integ q G.
Proof.
  intros Hv. induction q as [|x q IH]; intros H; [cbn; ring|]. unfold integ in *. cbn [map fold_right fst snd].
  rewrite Rmult_plus_distr_r, IH by (intros; apply H; right; auto). rewrite (H x (or_introl eq_refl)). field. auto.
Qed.

Lemma vol_change_lemma : forall o dom n F, is_bezier o = false -> positive_box (bmin dom) (bmax dom) ->
  (forall nw, In nw (alg_vol o dom n) -> length (fst nw) = length (bmin dom)) ->
  integ (vol_nodes o dom n) (fun p => F (scale_from_01 dom p)) * box_volume dom = integ (alg_vol o dom n) F.
Proof.
  intros o dom n F Hb Hd Hn. unfold vol_nodes. rewrite Hb. unfold eval_cell.
  apply (integ_change (alg_vol o dom n) (scale_to_01 dom)); [pose proof (volume_pos dom Hd); lra|].
  intros nw Hin. now rewrite back01 by auto.
Qed.

Lemma remove_len {A} (l : list A) : forall k, (k < length l)%nat -> length (remove_component k l) = (length l - 1)%nat.
Proof. induction l as [|x l IH]; intros [|k] H; simpl in *; try lia. rewrite IH by lia. lia. Qed.
Lemma remove_nth {A} (l : list A) d : forall k i, nth i (remove_component k l) d = nth (if Nat.ltb i k then i else S i) l d.
Proof.
  induction l as [|x l IH]; intros k i; simpl; [destruct k, i; simpl; auto; destruct (Nat.ltb _ _); auto|].
  destruct k; [reflexivity|]. destruct i; [reflexivity|]. simpl. rewrite IH. change (Nat.ltb (S i) (S k)) with (Nat.ltb i k). now destruct (Nat.ltb i k).
Qed.
Lemma slice_positive dom k : positive_box (bmin dom) (bmax dom) -> (k < length (bmin dom))%nat -> positive_box (bmin (box_slice dom k)) (bmax (box_slice dom k)).
Proof.
  intros [Hl Hp] Hk. unfold box_slice; cbn. split; [rewrite !remove_len by lia; lia|]. rewrite remove_len by lia. intros d Hd.
  rewrite !remove_nth. apply Hp. destruct (Nat.ltb_spec d k); lia.
Qed.
Lemma insert_nth (l : list R) x : forall k i, (k <= length l)%nat -> nth i (firstn k l ++ x :: skipn k l) 0 = if Nat.ltb i k then nth i l 0 else if Nat.eqb i k then x else nth (i - 1) l 0.
Proof.
  induction l as [|y l IH]; intros [|k] i H; simpl in H; try lia.
  - destruct i as [|[|i]]; reflexivity.
  - destruct i; [reflexivity|]. simpl. now rewrite Nat.sub_0_r.
  - destruct i; [reflexivity|]. cbn [firstn skipn app nth]. rewrite IH by lia. change (Nat.ltb (S i) (S k)) with (Nat.ltb i k). change (Nat.eqb (S i) (S k)) with (Nat.eqb i k).
    destruct (Nat.ltb_spec i k); auto. destruct (Nat.eqb_spec i k); auto. destruct i; [lia|]. replace (S (S i) - 1)%nat with (S i) by lia. replace (S i - 1)%nat with i by lia. reflexivity.
Qed.
Lemma insert_len (l : list R) x k : length (firstn k l ++ x :: skipn k l) = S (length l).
Proof. rewrite app_length. cbn [length]. rewrite firstn_length, skipn_length. lia. Qed.

Lemma facet_back dom f p : positive_box (bmin dom) (bmax dom) -> length p = length (bmin dom) -> (0 <= f < 2 * Z.of_nat (length p))%Z ->
  nth (Z.to_nat (f / 2)) p 0 = nth (Z.to_nat (f / 2)) (if (f mod 2 =? 0)%Z then bmin dom else bmax dom) 0 ->
  facet_point dom f (scale_to_01 (box_slice dom (Z.to_nat (f / 2))) (remove_component (Z.to_nat (f / 2)) p)) = p.
Proof.
  intros Hb Hp Hf Hon. set (k := Z.to_nat (f / 2)) in *. assert (k < length p)%nat as Hk.
  { unfold k. assert (f / 2 < Z.of_nat (length p))%Z by (apply Z.div_lt_upper_bound; lia). assert (0 <= f / 2)%Z by (apply Z.div_pos; lia). lia. }
  pose proof (slice_positive dom k Hb ltac:(lia)) as Hs. destruct Hb as [Hl Hpos]. destruct Hs as [Hls Hps].
  assert (length (remove_component k p) = length (bmin (box_slice dom k))) as Hlr by (cbn; rewrite !remove_len by lia; lia).
  set (r := scale_to_01 (box_slice dom k) (remove_component k p)).
  assert (length r = (length p - 1)%nat) as Hr by (unfold r; rewrite to01_len by auto; rewrite remove_len by lia; auto).
  unfold facet_point. fold k. set (x := if (f mod 2 =? 0)%Z then 0 else 1).
  assert (length (firstn k r ++ x :: skipn k r) = length (bmin dom)) as Hins by (rewrite insert_len; lia).
  apply (list_eq_nth 0); rewrite from01_len by auto; [lia|]. intros i Hi. rewrite from01_nth by (auto; lia). rewrite insert_nth by lia.
  assert (forall j, (j < length p - 1)%nat -> nth j r 0 = (nth (if Nat.ltb j k then j else S j) p 0 - nth (if Nat.ltb j k then j else S j) (bmin dom) 0) / (nth (if Nat.ltb j k then j else S j) (bmax dom) 0 - nth (if Nat.ltb j k then j else S j) (bmin dom) 0)) as Hrn.
  { intros j Hj. unfold r. rewrite to01_nth by (auto; rewrite remove_len; lia). cbn [box_slice bmin bmax]. now rewrite !remove_nth. }
  specialize (Hpos i ltac:(lia)). destruct (Nat.ltb_spec i k).
  - rewrite Hrn by lia. destruct (Nat.ltb_spec i k); [|lia]. field. lra.
  - destruct (Nat.eqb_spec i k) as [->|].
    + rewrite Hon. unfold x. destruct (f mod 2 =? 0)%Z; ring.
    + rewrite Hrn by lia. destruct (Nat.ltb_spec (i - 1) k); [lia|]. replace (S (i - 1)) with i by lia. field. lra.
Qed.

Lemma facet_change_lemma : forall o dom f n F, is_bezier o = false -> positive_box (bmin dom) (bmax dom) -> (0 <= f < 2 * Z.of_nat (length (bmin dom)))%Z ->
  let dir := Z.to_nat (f / 2) in
  (forall nw, In nw (alg_fct o dom (f / 2) (f mod 2) n) -> length (fst nw) = length (bmin dom) /\
     nth dir (fst nw) 0 = nth dir (if (f mod 2 =? 0)%Z then bmin dom else bmax dom) 0) ->
  integ (facet_rule o dom f n) (fun p => F (facet_point dom f p)) * box_volume (box_slice dom dir) = integ (alg_fct o dom (f / 2) (f mod 2) n) F.
Proof.
  intros o dom f n F Hb Hd Hf dir Hn. unfold facet_rule. rewrite Hb. fold dir.
  assert (dir < length (bmin dom))%nat as Hk.
  { unfold dir. assert (f / 2 < Z.of_nat (length (bmin dom)))%Z by (apply Z.div_lt_upper_bound; lia). assert (0 <= f / 2)%Z by (apply Z.div_pos; lia). lia. }
  apply (integ_change _ (fun p => scale_to_01 (box_slice dom dir) (remove_component dir p))); [pose proof (volume_pos _ (slice_positive dom dir Hd Hk)); lra|].
  intros nw Hin. destruct (Hn nw Hin) as [H1 H2]. unfold dir. rewrite facet_back; auto. rewrite H1. auto.
Qed.

(** Surfaces *)
Lemma fold_sq_acc l : forall a, fold_left (fun a x => a + x * x) l a = a + fold_left (fun a x => a + x * x) l 0.
Proof. induction l as [|x l IH]; intros a; simpl; [ring|]. rewrite IH, (IH (0 + x * x)). ring. Qed.
Definition sq (l : list R) : R := fold_left (fun a x => a + x * x) l 0.
Lemma sq_cons x l : sq (x :: l) = x * x + sq l.
Proof. unfold sq. simpl. rewrite fold_sq_acc. ring. Qed.
Lemma sq_nonneg l : 0 <= sq l.
Proof. induction l as [|x l IH]; [unfold sq; simpl; lra|]. rewrite sq_cons. nra. Qed.
Lemma sq_pos l d : nth d l 0 <> 0 -> 0 < sq l.
Proof.
  revert d. induction l as [|x l IH]; intros [|d] H; simpl in H; try congruence; rewrite sq_cons; pose proof (sq_nonneg l).
  - pose proof (Rsqr_pos_lt x H) as K. unfold Rsqr in K. lra.
  - specialize (IH d H). nra.
Qed.
Lemma sq_div l a : a <> 0 -> sq (vscale_inv l a) = sq l / (a * a).
Proof. intros Ha. induction l as [|x l IH]; [unfold sq; simpl; field; auto|]. cbn [vscale_inv map]. fold (vscale_inv l a). rewrite !sq_cons, IH. field. auto. Qed.
Lemma norm_unit l : 0 < sq l -> vec_norm (vscale_inv l (vec_norm l)) = 1.
Proof.
  intros H. assert (vec_norm l * vec_norm l = sq l) as E by (apply sqrt_sqrt; apply sq_nonneg).
  assert (0 < vec_norm l) as Hp by (apply sqrt_lt_R0; auto).
  unfold vec_norm at 1. fold (sq (vscale_inv l (vec_norm l))). rewrite sq_div by lra. rewrite E. replace (sq l / sq l) with 1 by (field; lra). apply sqrt_1.
Qed.
Lemma vscale_nth l a d : nth d (vscale_inv l a) 0 = nth d l 0 / a.
Proof. unfold vscale_inv. replace 0 with (0 / a) at 1 by (unfold Rdiv; ring). apply (map_nth (fun x => x / a)). Qed.

Lemma srf_change_lemma : forall o dom nw, positive_box (bmin dom) (bmax dom) -> length (fst nw) = length (bmin dom) -> length (grad o (fst nw)) = length (bmin dom) ->
  (exists d, nth d (grad o (fst nw)) 0 <> 0) ->
  let p := fst (fst (eval_unf o dom nw)) in let w := snd (fst (eval_unf o dom nw)) in let m := snd (eval_unf o dom nw) in
  scale_from_01 dom p = fst nw /\ vec_norm m = 1 /\
  (forall d, (d < length (bmin dom))%nat -> w * nth d m 0 * box_volume dom = snd nw * (nth d (grad o (fst nw)) 0 / vec_norm (grad o (fst nw))) * (nth d (bmax dom) 0 - nth d (bmin dom) 0)) /\
  (0 < snd nw -> 0 < w).
Proof.
  intros o dom nw Hb Hp Hg (d0 & Hd0). unfold eval_unf. cbn [fst snd]. set (gr := grad o (fst nw)) in *.
  pose proof (volume_pos dom Hb) as Hv. pose proof Hb as [Hl Hpos].
  assert (0 < sq gr) as Hs by (eapply sq_pos; eauto). assert (0 < vec_norm gr) as Hn by (apply sqrt_lt_R0; auto).
  set (n1 := vscale_inv gr (vec_norm gr)). set (n2 := map2 Rmult n1 (box_lengths dom)).
  assert (length n1 = length (bmin dom)) as L1 by (unfold n1, vscale_inv; rewrite map_length; auto).
  assert (length (box_lengths dom) = length (bmin dom)) as L2 by (apply lengths_len; auto).
  assert (d0 < length (bmin dom))%nat as Hd0' by (destruct (Nat.lt_ge_cases d0 (length gr)); [lia|rewrite nth_overflow in Hd0 by lia; congruence]).
  assert (forall d, (d < length (bmin dom))%nat -> nth d n2 0 = nth d gr 0 / vec_norm gr * (nth d (bmax dom) 0 - nth d (bmin dom) 0)) as N2.
  { intros d Hd. unfold n2. rewrite (map2_nth Rmult 0 0 0) by lia. rewrite lengths_nth by auto. unfold n1. now rewrite vscale_nth. }
  assert (0 < sq n2) as Hs2.
  { apply (sq_pos n2 d0). rewrite N2 by auto. specialize (Hpos d0 Hd0'). apply Rmult_integral_contrapositive. split; [|lra]. unfold Rdiv. apply Rmult_integral_contrapositive. split; auto. apply Rinv_neq_0_compat. lra. }
  assert (0 < vec_norm n2) as Hn2 by (apply sqrt_lt_R0; auto).
  split; [apply back01; auto|]. split; [now apply norm_unit|]. split.
  - intros d Hd. rewrite vscale_nth, N2 by auto. field. lra.
  - intros Hw. apply Rdiv_lt_0_compat; auto. apply Rmult_lt_0_compat; auto.
Qed.
