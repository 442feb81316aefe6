From Coq Require Import List Lia ZArith Arith Sorting.Sorted.
From Verif Require Import M_TensorNat S_TensorIndex L_TensorIndex.
Import ListNotations.

Lemma tp_range_In lo : forall hi t, length lo = length hi ->
  (In t (tp_range lo hi) <-> length t = length lo /\ forall d, (d < length lo)%nat -> (nth d lo 0 <= nth d t 0 < nth d hi 0)%nat).
Proof.
  induction lo as [|l lo IH]; intros [|h hi] t Hl; try discriminate; cbn [tp_range].
  - split; [intros [<-|[]]; split; auto; cbn; intros; lia|]. intros [H _]. destruct t; [left; auto|discriminate].
  - injection Hl as Hl. rewrite in_flat_map. split.
    + intros (rest & Hr & Ht). apply in_map_iff in Ht as (i & <- & Hi). apply in_seq in Hi. apply IH in Hr as [Hr1 Hr2]; auto.
      cbn [length]. split; [lia|]. intros [|d] Hd; cbn [nth]; [lia|apply Hr2; lia].
    + intros [Ht Hd]. destruct t as [|i t]; [discriminate|]. cbn [length] in *. injection Ht as Ht. exists t. split.
      * apply IH; auto. split; auto. intros d Hlt. apply (Hd (S d)). lia.
      * apply in_map_iff. exists i. split; auto. apply in_seq. specialize (Hd 0%nat). cbn [nth] in Hd. lia.
Qed.
Lemma repeat_nth_lt {A} (x : A) n d i : (i < n)%nat -> nth i (repeat x n) d = x.
Proof. revert i; induction n; intros [|i] H; cbn; auto; try lia. apply IHn; lia. Qed.
Lemma tp_all_In size t : In t (tp_all size) <-> length t = length size /\ forall d, (d < length size)%nat -> (nth d t 0 < nth d size 0)%nat.
Proof.
  unfold tp_all, tp_const. rewrite tp_range_In by (rewrite repeat_length; auto). rewrite repeat_length. split; intros [A B]; (split; [auto|]); intros d Hd.
  - specialize (B d Hd). lia.
  - specialize (B d Hd). rewrite repeat_nth_lt by auto. lia.
Qed.
Lemma tp_flat_lt size : forall t, length t = length size -> (forall d, (d < length size)%nat -> (nth d t 0 < nth d size 0)%nat) -> (tp_flat size t < tp_size size)%nat.
Proof.
  induction size as [|s size IH]; intros [|i t] Hl Hd; try discriminate; cbn [tp_flat tp_size fold_right]; [lia|].
  injection Hl as Hl. assert (Hi : (i < s)%nat) by (apply (Hd 0%nat); cbn; lia).
  assert (Ht : (tp_flat size t < tp_size size)%nat). { apply IH; auto. intros d H. apply (Hd (S d)). cbn; lia. }
  fold (tp_size size). nia.
Qed.
Lemma tp_flat_inj size : forall t u, length t = length size -> length u = length size ->
  (forall d, (d < length size)%nat -> (nth d t 0 < nth d size 0)%nat) -> (forall d, (d < length size)%nat -> (nth d u 0 < nth d size 0)%nat) ->
  tp_flat size t = tp_flat size u -> t = u.
Proof.
  induction size as [|s size IH]; intros [|i t] [|j u] Ht Hu Hd He E; try discriminate; auto. cbn [tp_flat] in E.
  assert (Hi : (i < s)%nat) by (apply (Hd 0%nat); cbn; lia). assert (Hj : (j < s)%nat) by (apply (He 0%nat); cbn; lia).
  assert (i = j). { apply (f_equal (fun x => x mod s)%nat) in E. rewrite !(Nat.mul_comm s), !Nat.mod_add, !Nat.mod_small in E; lia. }
  subst j. f_equal. apply IH; auto.
  - intros d H. apply (Hd (S d)). cbn; lia.
  - intros d H. apply (He (S d)). cbn; lia.
  - assert (s * tp_flat size t = s * tp_flat size u)%nat by lia. nia.
Qed.
(** Ranks in a range. *)
Fixpoint nsub (a b : list nat) : list nat := match a, b with x :: a', y :: b' => (x - y)%nat :: nsub a' b' | _, _ => [] end.
Lemma seq_mul_block s n : flat_map (fun k => map (fun i => (i + s * k)%nat) (seq 0 s)) (seq 0 n) = seq 0 (s * n).
Proof.
  induction n as [|n IH]; [rewrite Nat.mul_0_r; reflexivity|]. rewrite seq_S, flat_map_app, IH. cbn [flat_map]. rewrite app_nil_r.
  replace (s * S n)%nat with (s * n + s)%nat by lia. rewrite seq_app. f_equal. cbn [Nat.add].
  assert (G : forall m a b, map (fun i => (i + b)%nat) (seq a m) = seq (a + b) m).
  { clear. induction m as [|m IH]; intros; cbn; auto. f_equal. rewrite IH. f_equal. }
  rewrite G. f_equal.
Qed.
Lemma tp_rank_seq lo : forall hi, length lo = length hi ->
  map (fun t => tp_flat (nsub hi lo) (nsub t lo)) (tp_range lo hi) = seq 0 (tp_size (nsub hi lo)).
Proof.
  induction lo as [|l lo IH]; intros [|h hi] Hl; try discriminate; [reflexivity|]. injection Hl as Hl. cbn [tp_range nsub].
  unfold tp_size. cbn [fold_right]. fold (tp_size (nsub hi lo)). rewrite <- seq_mul_block, <- (IH hi Hl).
  rewrite !flat_map_concat_map, concat_map, !map_map. f_equal. apply map_ext. intros t. rewrite map_map. cbn [nsub tp_flat].
  set (s := (h - l)%nat). generalize (tp_flat (nsub hi lo) (nsub t lo)) as k. intros k.
  assert (G : forall m a, map (fun x => (x - l + s * k)%nat) (seq (l + a) m) = map (fun i => (i + s * k)%nat) (seq a m)).
  { induction m as [|m IHm]; intros a; cbn; auto. f_equal; [lia|]. rewrite plus_n_Sm. apply IHm. }
  specialize (G s 0%nat). rewrite Nat.add_0_r in G. exact G.
Qed.
Lemma nsub_zero t : forall n, nsub t (repeat 0%nat n) = firstn n t.
Proof. induction t as [|x t IH]; intros [|n]; cbn; auto. rewrite IH, Nat.sub_0_r. reflexivity. Qed.
Lemma tp_all_flat size : map (tp_flat size) (tp_all size) = seq 0 (tp_size size).
Proof.
  unfold tp_all, tp_const. pose proof (tp_rank_seq (repeat 0%nat (length size)) size (repeat_length _ _)) as H.
  rewrite nsub_zero, firstn_all in H. rewrite <- H. apply map_ext_in. intros t Ht. rewrite nsub_zero.
  apply tp_range_In in Ht as [Ht _]; [|apply repeat_length]. rewrite repeat_length in Ht. rewrite <- Ht, firstn_all. reflexivity.
Qed.
Lemma tp_all_length size : length (tp_all size) = tp_size size.
Proof. rewrite <- (map_length (tp_flat size)), tp_all_flat, seq_length. reflexivity. Qed.
Lemma tp_all_nth size k : (k < tp_size size)%nat -> tp_flat size (nth k (tp_all size) []) = k.
Proof.
  intros H. pose proof (tp_all_flat size) as E. apply (f_equal (fun l => nth k l (tp_flat size []))) in E. rewrite map_nth in E. rewrite E, seq_nth; auto.
Qed.
Lemma tp_all_nth_flat size t : In t (tp_all size) -> nth (tp_flat size t) (tp_all size) [] = t.
Proof.
  intros H. pose proof H as H'. apply tp_all_In in H' as [A B].
  assert (L : (tp_flat size t < tp_size size)%nat) by (apply tp_flat_lt; auto).
  assert (In (nth (tp_flat size t) (tp_all size) []) (tp_all size)) as K by (apply nth_In; rewrite tp_all_length; auto).
  apply tp_all_In in K as [C D]. apply (tp_flat_inj size); auto. apply tp_all_nth; auto.
Qed.
Lemma tp_all_NoDup size : NoDup (tp_all size).
Proof. apply (NoDup_map_inv (tp_flat size)). rewrite tp_all_flat. apply seq_NoDup. Qed.

(** ** Agreement with the checked model *)
Notation zs := (map Z.of_nat).
Lemma lex_tp size : forall t, lex (zs size) (zs t) = Z.of_nat (tp_flat size t).
Proof. induction size as [|s size IH]; intros [|i t]; cbn [map lex tp_flat]; try reflexivity. rewrite IH. lia. Qed.
Lemma cells_tp size : cells (zs size) = Z.of_nat (tp_size size).
Proof. unfold cells, tp_size. induction size as [|s size IH]; cbn [map fold_right]; try reflexivity. rewrite IH. lia. Qed.
Lemma tp_flat_ok size t : In t (tp_all size) -> (cells (zs size) <= INT64_MAX)%Z -> to_flat (zs t) (zs size) = Ret (Z.of_nat (tp_flat size t)).
Proof.
  intros H Hb. rewrite <- lex_tp. apply to_flat_ok; auto. apply tp_all_In in H as [Hl Hd]. clear Hb. revert t Hl Hd.
  induction size as [|s size IH]; intros [|i t] Hl Hd; try discriminate; cbn [map]; constructor.
  - specialize (Hd 0%nat). cbn in Hd. lia.
  - apply IH; [auto|]. intros d H. apply (Hd (S d)). cbn; lia.
Qed.
Lemma vsub_zs a : forall b, length a = length b -> (forall d, (d < length a)%nat -> (nth d b 0 <= nth d a 0)%nat) -> vsub (zs a) (zs b) = zs (nsub a b).
Proof.
  induction a as [|x a IH]; intros [|y b] Hl Hd; try discriminate; cbn [map vsub nsub]; auto. f_equal.
  - specialize (Hd 0%nat). cbn in Hd. lia.
  - apply IH; [auto|]. intros d H. apply (Hd (S d)). cbn; lia.
Qed.
Lemma tp_range_ok lo hi fuel : lo <> [] -> length lo = length hi -> (forall d, (d < length lo)%nat -> (nth d lo 0 < nth d hi 0)%nat) ->
  (tp_size (nsub hi lo) <= fuel)%nat -> iterate fuel (mk_range (zs lo) (zs hi)) = Ret (map zs (tp_range lo hi)).
Proof.
  intros Hne Hl Hd Hf.
  assert (Vs : vsub (zs hi) (zs lo) = zs (nsub hi lo)). { apply vsub_zs; auto. intros d H. specialize (Hd d). lia. }
  assert (Sz : range_size (mk_range (zs lo) (zs hi)) = Z.of_nat (tp_size (nsub hi lo))).
  { unfold range_size, range_sizes. cbn [lower upper]. rewrite Vs, size_prod_cells, cells_tp. reflexivity. }
  destruct (iterate_ok (mk_range (zs lo) (zs hi))) with (fuel := fuel) as (l & E & _ & _ & Len & Rk).
  - cbn. destruct lo; [contradiction|discriminate].
  - unfold nonempty_dirs. cbn [lower upper]. clear - Hl Hd. revert hi Hl Hd. induction lo as [|x lo IH]; intros [|y hi] Hl Hd; try discriminate; cbn [map]; constructor.
    + specialize (Hd 0%nat). cbn in Hd. lia.
    + apply IH; [auto|]. intros d H. apply (Hd (S d)). cbn; lia.
  - rewrite Sz, Nat2Z.id. exact Hf.
  - rewrite E. f_equal. rewrite Sz in Len. assert (Len' : length l = tp_size (nsub hi lo)) by lia.
    assert (Lr : length (tp_range lo hi) = tp_size (nsub hi lo)). { rewrite <- (map_length (fun t => tp_flat (nsub hi lo) (nsub t lo))), tp_rank_seq, seq_length; auto. }
    apply nth_ext with (d := []) (d' := zs []).
    { rewrite map_length. congruence. }
    intros k Hk. rewrite map_nth. cbn [lower upper] in Rk.
    assert (In (nth k (tp_range lo hi) []) (tp_range lo hi)) as Hin by (apply nth_In; lia).
    apply tp_range_In in Hin as [HL HB]; auto.
    assert (Box : in_box (zs lo) (zs hi) (zs (nth k (tp_range lo hi) []))).
    { unfold in_box. rewrite !map_length. split; [auto|]. split; [lia|]. intros d Hdd. change 0%Z with (Z.of_nat 0). rewrite !map_nth. specialize (HB d ltac:(lia)). lia. }
    destruct (iterate_ok (mk_range (zs lo) (zs hi))) with (fuel := fuel) as (l' & E' & Inl & _).
    + cbn. destruct lo; [contradiction|discriminate].
    + unfold nonempty_dirs. cbn [lower upper]. clear - Hl Hd. revert hi Hl Hd. induction lo as [|x lo IH]; intros [|y hi] Hl Hd; try discriminate; cbn [map]; constructor.
      * specialize (Hd 0%nat). cbn in Hd. lia.
      * apply IH; [auto|]. intros d H. apply (Hd (S d)). cbn; lia.
    + rewrite Sz, Nat2Z.id. exact Hf.
    + rewrite E in E'. injection E' as <-. apply (rank_inj (zs lo) (zs hi)); auto.
      * apply Inl. apply nth_In; auto.
      * rewrite Rk by auto. unfold rank. rewrite Vs, vsub_zs, lex_tp; [|auto|intros d Hdd; specialize (HB d ltac:(lia)); lia].
        f_equal. pose proof (tp_rank_seq lo hi Hl) as T. apply (f_equal (fun l => nth k l (tp_flat (nsub hi lo) (nsub [] lo)))) in T.
        rewrite (map_nth (fun t => tp_flat (nsub hi lo) (nsub t lo)) (tp_range lo hi) [] k) in T. rewrite T, seq_nth by lia. reflexivity.
Qed.
