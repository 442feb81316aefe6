From Coq Require Import List Arith Bool Lia ZArith Permutation Reals Lra.
From Verif Require Import M_PyBase M_PyNodes M_PyTp M_PyMesh M_PyTpMesh S_PyTp S_PyTpMesh L_PyNodes L_PyTp L_PyTp2 L_PyTp3.
Import ListNotations.
Local Close Scope R_scope. Local Close Scope Z_scope. Local Open Scope nat_scope.

Lemma arange_mul m s : 0 < s -> arange 0 (m * s) s = map (fun k => k * s) (seq 0 m).
Proof.
  intros H. unfold arange. replace ((m * s - 0 + (s - 1)) / s) with m; [reflexivity|].
  rewrite Nat.sub_0_r. symmetry. rewrite Nat.add_comm, Nat.div_add by lia. rewrite Nat.div_small by lia. lia.
Qed.
Lemma concat_nth {A} (d : A) k rows : (forall r, In r rows -> length r = k) -> forall j i, i < k -> j < length rows -> nth (j * k + i) (concat rows) d = nth i (nth j rows []) d.
Proof.
  induction rows as [|r rows IH]; intros H j i Hi Hj; [cbn in Hj; lia|]. cbn [concat]. assert (length r = k) by (apply H; cbn; auto). destruct j as [|j].
  - cbn [Nat.mul Nat.add nth]. apply app_nth1. lia.
  - rewrite app_nth2 by nia. replace (S j * k + i - length r) with (j * k + i) by nia. cbn [nth]. apply IH; [intros; apply H; cbn; auto|auto|cbn in Hj; lia].
Qed.
Lemma concat_len {A} k (rows : list (list A)) : (forall r, In r rows -> length r = k) -> length (concat rows) = length rows * k.
Proof. induction rows as [|r rows IH]; intros H; cbn; [reflexivity|]. rewrite app_length, IH by (intros; apply H; cbn; auto). rewrite (H r) by (cbn; auto). reflexivity. Qed.
Lemma outer_rows r c : forall x, In x (outer_sum r c) -> length x = length r.
Proof. unfold outer_sum. intros x H. apply in_map_iff in H. destruct H as (y & <- & _). apply map_length. Qed.
Lemma outer_len r c : length (concat (outer_sum r c)) = length c * length r.
Proof. rewrite (concat_len (length r)) by apply outer_rows. unfold outer_sum. rewrite map_length. reflexivity. Qed.
Lemma outer_nth r c i j d : i < length r -> j < length c -> nth (j * length r + i) (concat (outer_sum r c)) d = nth i r 0 + nth j c 0.
Proof.
  intros Hi Hj. rewrite (concat_nth d (length r)); [|apply outer_rows|auto|unfold outer_sum; rewrite map_length; auto].
  unfold outer_sum. rewrite (nth_map_at _ _ _ 0) by auto. rewrite (nth_map_at _ _ _ 0) by auto. reflexivity.
Qed.
Lemma step_nth r s m i j d : 0 < s -> i < length r -> j < m -> nth (j * length r + i) (concat (outer_sum r (arange 0 (m * s) s))) d = nth i r 0 + j * s.
Proof. intros H Hi Hj. rewrite arange_mul by auto. rewrite outer_nth by (auto; rewrite map_length, seq_length; auto). rewrite (nth_map_at _ _ _ 0) by (rewrite seq_length; auto). rewrite seq_nth by auto. reflexivity. Qed.
Lemma step_len r s m : 0 < s -> length (concat (outer_sum r (arange 0 (m * s) s))) = m * length r.
Proof. intros H. rewrite outer_len, arange_mul by auto. rewrite map_length, seq_length. reflexivity. Qed.

(** The first cell. *)
Lemma first_lex_ok degree n : 1 <= length n <= 3 -> length (first_cell_lex (length n) degree n) = (degree + 1) ^ length n /\
  forall t, index (repeat (degree + 1) (length n)) t -> nth (flat (repeat (degree + 1) (length n)) t) (first_cell_lex (length n) degree n) 0 = flat (point_dims degree n) t.
Proof.
  intros H. pose proof (arange1 0 (degree + 1)) as A1. rewrite Nat.sub_0_r in A1.
  destruct (dim_cases n H) as [(a & ->)|[(a & b & ->)|(a & b & c & ->)]]; unfold first_cell_lex; cbn [length Nat.eqb map point_dims n_pts_dir nth repeat]; rewrite A1; clear A1.
  - split; [rewrite seq_length; cbn; lia|]. intros t It. apply index1 in It. destruct It as (i & -> & Hi). cbn [flat]. rewrite !Nat.mul_0_r, !Nat.add_0_r. rewrite seq_nth by auto. reflexivity.
  - assert (L : length (concat (outer_sum (seq 0 (degree + 1)) (arange 0 ((degree + 1) * (a * degree + 1)) (a * degree + 1)))) = (degree + 1) * (degree + 1)) by (rewrite step_len by lia; rewrite seq_length; reflexivity).
    split; [rewrite L; cbn; lia|]. intros t It. apply index2 in It. destruct It as (i & j & -> & Hi & Hj). cbn [flat]. rewrite !Nat.mul_0_r, !Nat.add_0_r.
    replace (i + (degree + 1) * j) with (j * length (seq 0 (degree + 1)) + i) by (rewrite seq_length; lia). rewrite step_nth by (try rewrite seq_length; lia). rewrite seq_nth by auto. lia.
  - set (n0 := a * degree + 1). set (n1 := b * degree + 1). set (f2 := concat (outer_sum (seq 0 (degree + 1)) (arange 0 ((degree + 1) * n0) n0))).
    assert (L2 : length f2 = (degree + 1) * (degree + 1)) by (unfold f2; rewrite step_len by (unfold n0; lia); rewrite seq_length; reflexivity).
    rewrite <- Nat.mul_assoc. assert (P : 0 < n0 * n1) by (unfold n0, n1; apply Nat.mul_pos_pos; lia).
    split; [rewrite step_len by auto; rewrite L2; cbn; lia|]. intros t It. apply index3 in It. destruct It as (i & j & k & -> & Hi & Hj & Hk). cbn [flat]. rewrite !Nat.mul_0_r, !Nat.add_0_r.
    replace (i + (degree + 1) * (j + (degree + 1) * k)) with (k * length f2 + (j * (degree + 1) + i)) by (rewrite L2; ring).
    assert (B : j * (degree + 1) + i < length f2). { rewrite L2. apply Nat.lt_le_trans with (j * (degree + 1) + (degree + 1)); [lia|]. replace (j * (degree + 1) + (degree + 1)) with (S j * (degree + 1)) by ring. apply Nat.mul_le_mono_r. lia. }
    rewrite step_nth by auto. unfold f2. replace (j * (degree + 1) + i) with (j * length (seq 0 (degree + 1)) + i) by (rewrite seq_length; lia). rewrite step_nth by (try rewrite seq_length; unfold n0; lia). rewrite seq_nth by auto. cbn [Nat.add]. ring.
Qed.

(** Every node of the basix order is an index of the cell. *)
Lemma node_len degree dim vs a b : length (node degree dim vs a b) = dim.
Proof. unfold node. rewrite map_length, seq_length. reflexivity. Qed.
Lemma bounded_index f m k : (forall d, f d < m) -> forall s, index (repeat m k) (map f (seq s k)).
Proof. intros H. induction k as [|k IH]; intros s; cbn; constructor; auto. apply IH. Qed.
Lemma node_bound degree dim vs a b : a <= degree -> b <= degree -> index (repeat (degree + 1) dim) (node degree dim vs a b).
Proof.
  intros Ha Hb. apply bounded_index. intros d. cbv zeta. destruct (xorb _ _); [lia|]. destruct (xorb _ _); [lia|]. destruct (side _ _); lia.
Qed.
Lemma basix_index degree dim t : 1 <= dim <= 3 -> 1 <= degree -> In t (basix_order degree dim) -> index (repeat (degree + 1) dim) t.
Proof.
  intros Hd H I.
  assert (G : forall vv ee ff, In t (lagrange_order degree dim vv ee ff) -> index (repeat (degree + 1) dim) t).
  { intros vv ee ff J. unfold lagrange_order in J. rewrite !in_app_iff in J. destruct J as [J|[J|[J|J]]].
    - apply in_map_iff in J. destruct J as (v & <- & _). apply node_bound; lia.
    - apply in_flat_map in J. destruct J as (e & _ & J). unfold edge_nodes in J. apply in_map_iff in J. destruct J as (x & <- & J). apply in_seq in J. apply node_bound; lia.
    - apply in_flat_map in J. destruct J as (e & _ & J). unfold face_nodes in J. apply in_flat_map in J. destruct J as (y & Jy & J). apply in_map_iff in J. destruct J as (x & <- & J). apply in_seq in J, Jy. apply node_bound; lia.
    - unfold interior_nodes in J. destruct dim as [|[|[|[|dim]]]]; try lia; cbn [repeat].
      + apply in_map_iff in J. destruct J as (x & <- & J). apply in_seq in J. repeat constructor; lia.
      + apply in_flat_map in J. destruct J as (y & Jy & J). apply in_map_iff in J. destruct J as (x & <- & J). apply in_seq in J, Jy. repeat constructor; lia.
      + apply in_flat_map in J. destruct J as (z & Jz & J). apply in_flat_map in J. destruct J as (y & Jy & J). apply in_map_iff in J. destruct J as (x & <- & J). apply in_seq in J, Jy, Jz. repeat constructor; lia. }
  destruct dim as [|[|[|[|dim]]]]; try lia; cbn [basix_order] in I; eapply G; eauto.
Qed.
Lemma basix_len degree dim : 1 <= dim <= 3 -> 1 <= degree -> length (basix_order degree dim) = (degree + 1) ^ dim.
Proof.
  intros Hd H. destruct (dlf_perm dim degree Hd H) as (p & E & P). rewrite (dlf_order dim degree Hd H) in E. injection E as E. rewrite <- (map_length (flat (repeat (degree + 1) dim))), E.
  rewrite (Permutation_length P), seq_length. reflexivity.
Qed.
Lemma repeat_prod m k : nprod (repeat m k) = m ^ k.
Proof. induction k; cbn; auto. Qed.
Lemma first_conn_ok degree n : 1 <= length n <= 3 -> 1 <= degree -> pos_dims n ->
  first_cell_conn (length n) degree n = Ret (map (flat (point_dims degree n)) (basix_order degree (length n))).
Proof.
  intros Hd H P. unfold first_cell_conn.
  replace ((1 <=? length n) && (length n <=? 3)) with true by (symmetry; apply andb_true_iff; split; apply Nat.leb_le; lia).
  replace (1 <=? degree) with true by (symmetry; apply Nat.leb_le; lia).
  replace (forallb (fun n => 0 <? n) n) with true by (symmetry; apply forallb_forall; intros x Hx; apply Nat.ltb_lt; unfold pos_dims in P; rewrite Forall_forall in P; specialize (P x Hx); lia).
  cbn [assert_]. rewrite (dlf_order _ _ Hd H). cbn [bind]. destruct (first_lex_ok degree n Hd) as (L & F). set (B := basix_order degree (length n)) in *. rewrite map_length.
  assert (R : forall i, In i (seq 0 (length B)) -> (j <- pat (map (flat (repeat (degree + 1) (length n))) B) i ;; pat (first_cell_lex (length n) degree n) j) = Ret (flat (point_dims degree n) (nth i B []))).
  { intros i Hi. apply in_seq in Hi. rewrite (pat_ret _ i 0) by (rewrite map_length; lia). cbn [bind]. rewrite (nth_map_at _ _ _ []) by lia.
    assert (I : index (repeat (degree + 1) (length n)) (nth i B [])) by (apply basix_index; auto; apply nth_In; apply Hi).
    rewrite (pat_ret _ _ 0). { rewrite F by auto. reflexivity. } rewrite L, <- repeat_prod. apply flat_lt. auto. }
  rewrite (pmap_ret _ _ _ R). f_equal. rewrite <- (map_map (fun i => nth i B []) (flat (point_dims degree n))). f_equal.
  clear. induction B as [|b B IH] using rev_ind; [reflexivity|]. rewrite app_length. cbn [length]. rewrite Nat.add_comm. cbn [Nat.add]. rewrite seq_S, map_app. cbn [map Nat.add].
  rewrite app_nth2, Nat.sub_diag by lia. cbn [nth]. f_equal. rewrite <- IH at 2. apply map_ext_in. intros i Hi. apply in_seq in Hi. apply app_nth1. lia.
Qed.
