From Coq Require Import List Arith Bool Lia Permutation Sorting.Sorted.
From Verif Require Import M_PyBase M_PyNodes M_PyTp S_PyTp L_PyNodes L_PyTp L_PyTp2.
Import ListNotations.
Local Open Scope nat_scope.

(** ** get_all_internal *)
Lemma internal1_iff a i : internal [a] [i] <-> 0 < i < a - 1.
Proof. unfold internal. cbn [length]. split; [intros H; apply (H 0); lia|intros H [|d] Hd; cbn; lia]. Qed.
Lemma internal2_iff a b i j : internal [a; b] [i; j] <-> 0 < i < a - 1 /\ 0 < j < b - 1.
Proof. unfold internal. cbn [length]. split; [intros H; split; [apply (H 0)|apply (H 1)]; lia|intros (H & K) [|[|d]] Hd; cbn; lia]. Qed.
Lemma internal3_iff a b c i j k : internal [a; b; c] [i; j; k] <-> 0 < i < a - 1 /\ 0 < j < b - 1 /\ 0 < k < c - 1.
Proof. unfold internal. cbn [length]. split; [intros H; split; [|split]; [apply (H 0)|apply (H 1)|apply (H 2)]; lia|intros (H & K & L) [|[|[|d]]] Hd; cbn; lia]. Qed.
Lemma cols_eq m b : 0 < m -> arange m (m * (b - 1)) m = map (fun j => m * j) (seq 1 (b - 2)).
Proof.
  intros Hm. unfold arange. assert (E : (m * (b - 1) - m + (m - 1)) / m = b - 2).
  { destruct b as [|[|b]]; [cbn; rewrite Nat.mul_0_r; cbn; apply Nat.div_small; lia|cbn; rewrite Nat.mul_0_r; cbn; apply Nat.div_small; lia|].
    replace (m * (S (S b) - 1) - m + (m - 1)) with (b * m + (m - 1)) by (replace (S (S b) - 1) with (S b) by lia; nia). rewrite Nat.div_add_l by lia. rewrite Nat.div_small by lia. lia. }
  rewrite E. rewrite <- seq_shift, map_map. apply map_ext. intros j. nia.
Qed.
Lemma cols_len m b : 0 < m -> length (arange m (m * (b - 1)) m) = b - 2.
Proof. intros H. rewrite cols_eq by auto. rewrite map_length, seq_length. auto. Qed.
Lemma cols_in m b x : 0 < m -> In x (arange m (m * (b - 1)) m) <-> exists j, 0 < j < b - 1 /\ x = m * j.
Proof. intros H. rewrite cols_eq by auto. rewrite in_map_iff. split; [intros (j & <- & Hj)|intros (j & Hj & ->)]; exists j; rewrite in_seq in *; split; auto; lia. Qed.
Lemma row_in a i : In i (arange 1 (a - 1) 1) <-> 0 < i < a - 1.
Proof. rewrite arange1, in_seq. lia. Qed.
Lemma int1 a : lists_exactly [a] (internal [a]) (arange 1 (a - 1) 1).
Proof.
  apply lists_intro; [apply arange_ss; auto|]. intros x. rewrite row_in. split.
  - intros H. exists [x]. split; [apply index1; exists x; split; auto; lia|]. split; [apply internal1_iff; auto|cbn; lia].
  - intros (t & It & F & ->). apply index1 in It. destruct It as (i & -> & Hi). apply internal1_iff in F. cbn. lia.
Qed.
Lemma int2 a b : 0 < a -> lists_exactly [a; b] (internal [a; b]) (concat (outer_sum (arange 1 (a - 1) 1) (arange a (a * (b - 1)) a))).
Proof.
  intros Ha. rewrite outer_concat. apply lists_intro.
  - apply ss_fm; [apply arange_ss; auto|intros y _; apply ss_map; [intros; lia|apply arange_ss; auto]|].
    intros x y u v Hx Hy L Hu Hv. apply in_map_iff in Hu, Hv. destruct Hu as (p & <- & Hp), Hv as (q & <- & Hq). rewrite row_in in Hp, Hq. apply cols_in in Hx, Hy; auto. destruct Hx as (j & _ & ->), Hy as (j' & _ & ->).
    assert (S j <= j') by nia. assert (a * S j <= a * j') by (apply Nat.mul_le_mono_l; auto). lia.
  - intros x. rewrite in_flat_map. split.
    + intros (y & Hy & Hx). apply cols_in in Hy; auto. destruct Hy as (j & Hj & ->). apply in_map_iff in Hx. destruct Hx as (i & <- & Hi). rewrite row_in in Hi. exists [i; j].
      split; [apply index2; exists i, j; repeat split; lia|]. split; [apply internal2_iff; lia|cbn [flat]; ring].
    + intros (t & It & F & ->). apply index2 in It. destruct It as (i & j & -> & Hi & Hj). apply internal2_iff in F. destruct F as (Fi & Fj). exists (a * j). split; [apply cols_in; auto; exists j; auto|].
      apply in_map_iff. exists i. split; [cbn [flat]; ring|apply row_in; auto].
Qed.
Lemma internal2_ok a b : 0 < a -> internal2 [a; b] = Ret (A2 (outer_sum (arange 1 (a - 1) 1) (arange a (a * (b - 1)) a))).
Proof. intros Ha. unfold internal2, n_. cbn [nth]. rewrite cols_len by auto. rewrite Nat.eqb_refl. reflexivity. Qed.
Lemma internal3_eq a b c : 0 < a -> 0 < b -> internal3 [a; b; c] = add_column (A2 (outer_sum (arange 1 (a - 1) 1) (arange a (a * (b - 1)) a))) (arange (a * b) (a * b * (c - 1)) (a * b)).
Proof.
  intros Ha Hb. unfold internal3. assert (E : internal2 [a; b; c] = internal2 [a; b]) by reflexivity. rewrite E, internal2_ok by auto. cbn [bind]. unfold n_. cbn [nth]. rewrite cols_len by nia. rewrite Nat.eqb_refl. reflexivity.
Qed.
Lemma int3_in a b c : 0 < a -> 0 < b -> forall x, (exists t, index [a; b; c] t /\ internal [a; b; c] t /\ x = flat [a; b; c] t) <-> exists i j k, 0 < i < a - 1 /\ 0 < j < b - 1 /\ 0 < k < c - 1 /\ x = i + a * j + a * b * k.
Proof.
  intros Ha Hb x. split.
  - intros (t & It & F & ->). apply index3 in It. destruct It as (i & j & k & -> & Hi & Hj & Hk). apply internal3_iff in F. exists i, j, k. cbn [flat]. destruct F as (? & ? & ?). repeat (split; [lia|]). ring.
  - intros (i & j & k & Hi & Hj & Hk & ->). exists [i; j; k]. split; [apply index3; exists i, j, k; repeat split; lia|]. split; [apply internal3_iff; auto|cbn [flat]; ring].
Qed.
Lemma outer_len r c : length (outer_sum r c) = length c.
Proof. apply map_length. Qed.
(** 3D, with three indices in the second direction: one row. *)
Lemma int3_row a c : 0 < a -> exists r, internal3 [a; 3; c] = Ret r /\ lists_exactly [a; 3; c] (internal [a; 3; c]) (entries r).
Proof.
  intros Ha. rewrite internal3_eq by lia. rewrite (cols_eq a 3) by auto. cbn [Nat.sub seq map outer_sum].
  set (r := map (fun x => x + a * 1) (arange 1 (a - 1) 1)). set (cs := arange (a * 3) (a * 3 * (c - 1)) (a * 3)).
  assert (E : exists z, add_column (A2 [r]) cs = Ret z /\ entries z = concat (outer_sum r cs)).
  { unfold add_column. destruct (length [r] =? length cs) eqn:L.
    - apply Nat.eqb_eq in L. destruct cs as [|y [|? ?]]; try discriminate L. eexists. split; [reflexivity|reflexivity].
    - eexists. split; reflexivity. }
  destruct E as (z & Ez & Ent). exists z. split; auto. rewrite Ent, outer_concat. apply lists_intro.
  - apply ss_fm; [apply arange_ss; lia|intros y _; apply ss_map; [intros; lia|apply ss_map; [intros; lia|apply arange_ss; auto]]|].
    intros x y u v Hx Hy L Hu Hv. apply in_map_iff in Hu, Hv. destruct Hu as (p & <- & Hp), Hv as (q & <- & Hq). unfold r in Hp, Hq. apply in_map_iff in Hp, Hq. destruct Hp as (p' & <- & Hp), Hq as (q' & <- & Hq).
    rewrite row_in in Hp, Hq. unfold cs in *. apply cols_in in Hx, Hy; try lia. destruct Hx as (j & _ & ->), Hy as (j' & _ & ->).
    assert (S j <= j') by nia. assert (a * 3 * S j <= a * 3 * j') by (apply Nat.mul_le_mono_l; auto). lia.
  - intros x. rewrite int3_in by lia. rewrite in_flat_map. split.
    + intros (y & Hy & Hx). apply cols_in in Hy; [|lia]. destruct Hy as (k & Hk & ->). apply in_map_iff in Hx. destruct Hx as (p & <- & Hp). unfold r in Hp. apply in_map_iff in Hp. destruct Hp as (i & <- & Hi). rewrite row_in in Hi. exists i, 1, k. repeat split; lia.
    + intros (i & j & k & Hi & Hj & Hk & ->). exists (a * 3 * k). split; [apply cols_in; [lia|]; exists k; auto|]. apply in_map_iff. exists (i + a * 1). split; [replace j with 1 by lia; lia|]. apply in_map_iff. exists i. split; auto. apply row_in; auto.
Qed.
Lemma concat_map_add y rows : concat (map (map (fun x => x + y)) rows) = map (fun x => x + y) (concat rows).
Proof. symmetry. apply concat_map. Qed.
(** 3D, with three indices in the third direction: one layer. *)
Lemma int3_layer a b : 0 < a -> 0 < b -> exists r, internal3 [a; b; 3] = Ret r /\ lists_exactly [a; b; 3] (internal [a; b; 3]) (entries r).
Proof.
  intros Ha Hb. rewrite internal3_eq by lia. assert (Hab : 0 < a * b) by nia. rewrite (cols_eq (a * b) 3) by auto. cbn [Nat.sub seq map]. set (rows := outer_sum (arange 1 (a - 1) 1) (arange a (a * (b - 1)) a)).
  assert (E : exists z, add_column (A2 rows) [a * b * 1] = Ret z /\ entries z = map (fun x => x + a * b * 1) (concat rows)).
  { unfold add_column. destruct (length rows =? length [a * b * 1]) eqn:L.
    - apply Nat.eqb_eq in L. destruct rows as [|y [|? ?]]; try discriminate L. eexists. split; [reflexivity|]. cbn. rewrite !app_nil_r. auto.
    - destruct rows as [|r0 [|r1 rows']]; [|discriminate L|]; (eexists; split; [reflexivity|]); cbn [entries]; apply concat_map_add. }
  destruct E as (z & Ez & Ent). exists z. split; auto. rewrite Ent. destruct (int2 a b Ha) as (SS & I). fold rows in SS, I. apply lists_intro; [apply ss_map; auto; intros; lia|].
  intros x. rewrite int3_in by lia. rewrite in_map_iff. split.
  - intros (y & <- & Hy). apply I in Hy. destruct Hy as (t & It & F & ->). apply index2 in It. destruct It as (i & j & -> & Hi & Hj). apply internal2_iff in F. exists i, j, 1. cbn [flat]. repeat split; lia.
  - intros (i & j & k & Hi & Hj & Hk & ->). exists (i + a * j). split; [replace k with 1 by lia; lia|]. apply I. exists [i; j]. split; [apply index2; exists i, j; repeat split; lia|]. split; [apply internal2_iff; auto|cbn [flat]; ring].
Qed.
Lemma nth_map_at {A B} (f : A -> B) l i d d' : i < length l -> nth i (map f l) d' = f (nth i l d).
Proof. revert i. induction l as [|x l IH]; intros [|i]; cbn; intros H; auto; try lia. apply IH. lia. Qed.
(** 3D, the general case: an exception, or an index is missing. *)
Lemma int3_missing a b c : 3 <= a -> 4 <= b -> 4 <= c -> ~ exists r, internal3 [a; b; c] = Ret r /\ lists_exactly [a; b; c] (internal [a; b; c]) (entries r).
Proof.
  intros Ha Hb Hc (r & E & _ & I). rewrite internal3_eq in E by lia. assert (Hab : 0 < a * b) by nia.
  set (rows := outer_sum (arange 1 (a - 1) 1) (arange a (a * (b - 1)) a)) in E. set (cs := arange (a * b) (a * b * (c - 1)) (a * b)) in E.
  assert (Lr : length rows = b - 2) by (unfold rows; rewrite outer_len; apply cols_len; lia). assert (Lc : length cs = c - 2) by (apply cols_len; auto).
  unfold add_column in E. destruct (length rows =? length cs) eqn:L.
  - injection E as <-. cbn [entries] in I. apply Nat.eqb_eq in L.
    assert (X : In (1 + a * 2 + a * b * 1) (concat (map (fun rc => map (fun x => x + snd rc) (fst rc)) (combine rows cs)))).
    { apply I. apply int3_in; [lia|lia|]. exists 1, 2, 1. repeat split; lia. }
    apply in_concat in X. destruct X as (l & Hl & Hx). apply in_map_iff in Hl. destruct Hl as ((row, y) & <- & Hr). cbn [fst snd] in Hx.
    assert (P : exists j, j < b - 2 /\ row = map (fun x => x + a * (1 + j)) (arange 1 (a - 1) 1) /\ y = a * b * (1 + j)).
    { apply (In_nth _ _ ([], 0)) in Hr. destruct Hr as (j & Hj & Hr). rewrite combine_length, Lr, Lc in Hj. rewrite combine_nth in Hr by lia. exists j. split; [lia|].
      assert (R : nth j rows [] = row) by congruence. assert (Y : nth j cs 0 = y) by congruence. split.
      - rewrite <- R. unfold rows, outer_sum. rewrite (cols_eq a b) by lia. rewrite map_map.
        rewrite (nth_map_at _ _ j 0) by (rewrite seq_length; lia). rewrite seq_nth by lia. reflexivity.
      - rewrite <- Y. unfold cs. rewrite (cols_eq (a * b) c) by auto. rewrite (nth_map_at _ _ j 0) by (rewrite seq_length; lia). rewrite seq_nth by lia. reflexivity. }
    destruct P as (j & Hj & -> & ->). apply in_map_iff in Hx. destruct Hx as (p & Ep & Hp). apply in_map_iff in Hp. destruct Hp as (i & <- & Hi). apply row_in in Hi.
    assert (Q : [1; 2; 1] = [i; 1 + j; 1 + j]). { apply (flat_inj [a; b; c]); [apply index3; exists 1, 2, 1; repeat split; lia|apply index3; exists i, (1 + j), (1 + j); repeat split; lia|]. cbn [flat]. lia. }
    injection Q as Q1 Q2 Q3. lia.
  - destruct rows as [|r0 [|r1 rows']]; cbn [length] in Lr; try lia. destruct cs as [|y [|y' cs']]; cbn [length] in Lc; try lia. discriminate E.
Qed.
