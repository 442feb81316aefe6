From Coq Require Import List Arith Bool Lia ZArith Permutation Reals Lra.
From Verif Require Import L_Reparam2 M_PyBase M_PyNodes M_PyTp M_PyMesh M_PyTpMesh S_PyTp S_PyTpMesh L_PyNodes L_PyTp L_PyTp2 L_PyTp3 L_PyTpMesh.
Import ListNotations.
Local Close Scope R_scope. Local Close Scope Z_scope. Local Open Scope nat_scope.

Lemma reshape_ok k m l : 0 < k -> length l = m * k -> exists rows, reshape_rows k l = Ret rows /\ length rows = m /\ (forall r, In r rows -> length r = k) /\
  (forall i j, i < k -> j < m -> nth i (nth j rows []) 0 = nth (j * k + i) l 0).
Proof.
  intros Hk L. unfold reshape_rows. rewrite L, Nat.mod_mul, Nat.div_mul by lia. cbn [Nat.eqb]. eexists. split; [reflexivity|]. rewrite map_length, seq_length. split; [reflexivity|].
  assert (B : forall j, j < m -> j * k + k <= length l). { intros j Hj. rewrite L. replace (j * k + k) with (S j * k) by ring. apply Nat.mul_le_mono_r. lia. }
  split.
  - intros r Hr. apply in_map_iff in Hr. destruct Hr as (j & <- & Hj). apply in_seq in Hj. specialize (B j ltac:(lia)). rewrite firstn_length, skipn_length. lia.
  - intros i j Hi Hj. rewrite (nth_map_at _ _ _ 0) by (rewrite seq_length; auto). rewrite seq_nth by auto. cbn [Nat.add].
    rewrite nth_firstn_c by auto. rewrite nth_skipn_c. reflexivity.
Qed.
Lemma conn_ok degree n : 1 <= length n <= 3 -> 1 <= degree -> pos_dims n ->
  exists conn, tensor_prod_conn (length n) degree n = Ret conn /\ length conn = nprod n /\ (forall r, In r conn -> length r = (degree + 1) ^ length n) /\
    forall c k, index n c -> k < (degree + 1) ^ length n ->
      nth k (nth (flat n c) conn []) 0 = flat (point_dims degree n) (point_of degree c (nth k (basix_order degree (length n)) [])).
Proof.
  intros Hd H P. pose proof (basix_len degree (length n) Hd H) as BL. pose proof (fun k => basix_index degree (length n) (nth k (basix_order degree (length n)) []) Hd H) as BI.
  unfold tensor_prod_conn.
  replace ((1 <=? length n) && (length n <=? 3)) with true by (symmetry; apply andb_true_iff; split; apply Nat.leb_le; lia).
  replace (1 <=? degree) with true by (symmetry; apply Nat.leb_le; lia).
  replace (forallb (fun n => 0 <? n) n) with true by (symmetry; apply forallb_forall; intros x Hx; apply Nat.ltb_lt; unfold pos_dims in P; rewrite Forall_forall in P; specialize (P x Hx); lia).
  cbn [assert_]. rewrite (first_conn_ok degree n Hd H P). cbn [bind]. set (B := basix_order degree (length n)) in *. set (K := (degree + 1) ^ length n) in *.
  set (F := map (flat (point_dims degree n)) B). assert (LF : length F = K) by (unfold F; rewrite map_length; auto).
  assert (NF : forall k, k < K -> nth k F 0 = flat (point_dims degree n) (nth k B [])) by (intros k Hk; unfold F; rewrite (nth_map_at _ _ _ []) by lia; reflexivity).
  assert (KP : 0 < K) by (unfold K; rewrite <- (Nat.pow_1_l (length n)); apply Nat.lt_le_trans with 1; [lia|]; rewrite Nat.pow_1_l; pose proof (Nat.pow_nonzero (degree + 1) (length n) ltac:(lia)); lia).
  assert (BI' : forall k, k < K -> index (repeat (degree + 1) (length n)) (nth k B [])) by (intros k Hk; apply BI; apply nth_In; rewrite BL; auto). clear BI. clearbody F B K.
  destruct (dim_cases n Hd) as [(a & ->)|[(a & b & ->)|(a & b & c & ->)]]; unfold pos_dims in P; cbn [length Nat.ltb Nat.leb map point_dims n_pts_dir nth repeat nprod fold_right] in *;
    repeat match goal with H : Forall _ (_ :: _) |- _ => apply Forall_inv in H as ? ; apply Forall_inv_tail in H end.
  - set (X := concat (outer_sum F (arange 0 (a * degree) degree))).
    assert (LX : length X = a * K) by (unfold X; rewrite step_len by lia; rewrite LF; reflexivity).
    destruct (reshape_ok K a X KP LX) as (rows & E & L & R & V). rewrite LF, E. exists rows. split; [reflexivity|]. split; [lia|]. split; [auto|].
    intros c k Ic Hk. apply index1 in Ic. destruct Ic as (i & -> & Hi). pose proof (BI' k Hk) as It. apply index1 in It. destruct It as (u & Eu & Hu).
    cbn [flat]. rewrite Nat.mul_0_r, Nat.add_0_r. rewrite V by auto. unfold X. rewrite <- LF. rewrite step_nth by lia. rewrite NF, Eu by auto. cbn. ring.
  - set (X1 := concat (outer_sum F (arange 0 (a * degree) degree))). set (p0 := a * degree + 1). 
    assert (LX1 : length X1 = a * K) by (unfold X1; rewrite step_len by lia; rewrite LF; reflexivity).
    replace (p0 * degree * b) with (b * (p0 * degree)) by ring. assert (S0 : 0 < p0 * degree) by (unfold p0; apply Nat.mul_pos_pos; lia).
    set (X := concat (outer_sum X1 (arange 0 (b * (p0 * degree)) (p0 * degree)))).
    assert (LX : length X = (a * b) * K) by (unfold X; rewrite step_len by lia; rewrite LX1; ring).
    destruct (reshape_ok K (a * b) X KP LX) as (rows & E & L & R & V). rewrite LF, E. exists rows. split; [reflexivity|]. split; [lia|]. split; [auto|].
    intros c k Ic Hk. apply index2 in Ic. destruct Ic as (i & j & -> & Hi & Hj). pose proof (BI' k Hk) as It. apply index2 in It. destruct It as (u & v & Eu & Hu & Hv).
    cbn [flat]. rewrite Nat.mul_0_r, Nat.add_0_r.
    assert (B1 : i * K + k < a * K) by (apply Nat.lt_le_trans with (S i * K); [cbn; lia|apply Nat.mul_le_mono_r; lia]).
    rewrite V; [|auto|apply Nat.lt_le_trans with (a * S j); [nia|apply Nat.mul_le_mono_l; lia]]. unfold X.
    replace ((i + a * j) * K + k) with (j * length X1 + (i * length F + k)) by (rewrite LX1, LF; ring). rewrite step_nth by (auto; rewrite ?LX1, ?LF; auto). unfold X1. rewrite step_nth by lia. rewrite NF, Eu by auto. cbn [flat point_of combine map fst snd]. fold p0. ring.
  - set (X1 := concat (outer_sum F (arange 0 (a * degree) degree))). set (p0 := a * degree + 1). set (p1 := b * degree + 1).
    assert (LX1 : length X1 = a * K) by (unfold X1; rewrite step_len by lia; rewrite LF; reflexivity).
    replace (p0 * degree * b) with (b * (p0 * degree)) by ring. assert (S0 : 0 < p0 * degree) by (unfold p0; apply Nat.mul_pos_pos; lia).
    set (X2 := concat (outer_sum X1 (arange 0 (b * (p0 * degree)) (p0 * degree)))).
    assert (LX2 : length X2 = (a * b) * K) by (unfold X2; rewrite step_len by lia; rewrite LX1; ring).
    replace (p0 * p1 * degree * c) with (c * (p0 * p1 * degree)) by ring. assert (S1 : 0 < p0 * p1 * degree) by (unfold p0, p1; repeat apply Nat.mul_pos_pos; lia).
    set (X := concat (outer_sum X2 (arange 0 (c * (p0 * p1 * degree)) (p0 * p1 * degree)))).
    assert (LX : length X = (a * (b * c)) * K) by (unfold X; rewrite step_len by lia; rewrite LX2; ring).
    destruct (reshape_ok K (a * (b * c)) X KP LX) as (rows & E & L & R & V). rewrite LF, E. exists rows. split; [reflexivity|]. split; [lia|]. split; [auto|].
    intros cc q Ic Hq. apply index3 in Ic. destruct Ic as (i & j & k & -> & Hi & Hj & Hk). pose proof (BI' q Hq) as It. apply index3 in It. destruct It as (u & v & w & Eu & Hu & Hv & Hw).
    cbn [flat]. rewrite Nat.mul_0_r, Nat.add_0_r.
    assert (B1 : i * K + q < a * K) by (apply Nat.lt_le_trans with (S i * K); [cbn; lia|apply Nat.mul_le_mono_r; lia]).
    assert (B2 : j * (a * K) + (i * K + q) < a * b * K). { apply Nat.lt_le_trans with (j * (a * K) + a * K); [lia|]. replace (j * (a * K) + a * K) with (S j * (a * K)) by ring. replace (a * b * K) with (b * (a * K)) by ring. apply Nat.mul_le_mono_r. lia. }
    assert (B3 : i + a * (j + b * k) < a * (b * c)). { apply Nat.lt_le_trans with (a * S (j + b * k)); [rewrite Nat.mul_succ_r; lia|]. apply Nat.mul_le_mono_l. apply Nat.le_trans with (b * S k); [rewrite Nat.mul_succ_r; lia|apply Nat.mul_le_mono_l; lia]. }
    rewrite V by auto. unfold X.
    replace ((i + a * (j + b * k)) * K + q) with (k * length X2 + (j * length X1 + (i * length F + q))) by (rewrite LX2, LX1, LF; ring).
    rewrite step_nth by (auto; rewrite ?LX2, ?LX1, ?LF; auto). unfold X2. rewrite step_nth by (auto; rewrite ?LX1, ?LF; auto). unfold X1. rewrite step_nth by lia. rewrite NF, Eu by auto. cbn [flat point_of combine map fst snd]. fold p0 p1. ring.
Qed.
(** Points are indices of the grid of points. *)
Lemma point_index degree n c t : index n c -> index (repeat (degree + 1) (length n)) t -> index (point_dims degree n) (point_of degree c t).
Proof.
  intros Ic. revert t. unfold index in *. induction Ic as [|x m c n Hx Ic IH]; intros t It; cbn in It; inversion It as [|u ? t' ? Hu It']; subst; cbn; constructor; [|apply IH; auto].
  assert (S x * degree <= m * degree) by (apply Nat.mul_le_mono_r; lia). cbn in *. lia.
Qed.
(** Every point of the grid of points is a node of some cell. *)
Lemma points_covered degree n p : 1 <= degree -> pos_dims n -> index (point_dims degree n) p -> exists c t, index n c /\ index (repeat (degree + 1) (length n)) t /\ point_of degree c t = p.
Proof.
  intros H P. revert p. unfold index in *. induction P as [|m n Hm P IH]; intros p Ip; cbn in Ip; inversion Ip as [|x ? p' ? Hx Ip']; subst.
  - exists [], []. repeat constructor.
  - destruct (IH _ Ip') as (c & t & Ic & It & E). destruct (Nat.eq_dec x (m * degree)) as [->|N].
    + exists (m - 1 :: c), (degree :: t). cbn. repeat split; try constructor; auto; try lia. unfold point_of in E. f_equal; auto. replace m with (S (m - 1)) at 2 by lia. cbn. lia.
    + exists (x / degree :: c), (x mod degree :: t). cbn. pose proof (Nat.mod_upper_bound x degree ltac:(lia)). repeat split; try constructor; auto; try lia.
      * apply Nat.div_lt_upper_bound; lia.
      * unfold point_of in E. f_equal; auto. symmetry. apply Nat.div_mod. lia.
Qed.
