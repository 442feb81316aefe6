From Coq Require Import List Arith Bool Lia Permutation Sorting.Sorted.
From Verif Require Import M_PyBase M_PyNodes M_PyTp S_PyTp L_PyNodes L_PyTp L_PyTp2 L_PyTp3.
Import ListNotations.
Local Open Scope nat_scope.

(** ** get_all_faces *)
Lemma put_pre pre v m : put (pre ++ repeat 0 (length v + m)) (length pre) v = Ret (pre ++ v ++ repeat 0 m).
Proof.
  unfold put. rewrite app_length, repeat_length. replace (length pre + length v <=? length pre + (length v + m)) with true by (symmetry; apply Nat.leb_le; lia).
  f_equal. rewrite firstn_app, Nat.sub_diag, firstn_all. cbn [firstn]. rewrite app_nil_r. f_equal. f_equal.
  rewrite skipn_app. rewrite skipn_all2 by lia. cbn [app]. replace (length pre + length v - length pre) with (length v) by lia. generalize (length v). intros k. rewrite repeat_app, skipn_app, repeat_length, skipn_all2 by (rewrite repeat_length; auto).
  rewrite Nat.sub_diag. reflexivity.
Qed.
Lemma put1_pre pre x m : put1 (pre ++ repeat 0 (S m)) (length pre) x = Ret (pre ++ [x] ++ repeat 0 m).
Proof.
  unfold put1. rewrite app_length, repeat_length. replace (length pre <? length pre + S m) with true by (symmetry; apply Nat.ltb_lt; lia). cbn [assert_]. apply (put_pre pre [x] m).
Qed.
Definition row_ends (n0 j : nat) : list nat := [j * n0; (j + 1) * n0 - 1].
Lemma rows2_ok n0 js : forall pre m, rows2 n0 js (length pre) (pre ++ repeat 0 (2 * length js + m)) = Ret (pre ++ flat_map (row_ends n0) js ++ repeat 0 m).
Proof.
  induction js as [|j js IH]; intros pre m; [reflexivity|]. cbn [rows2 length]. replace (2 * S (length js) + m) with (S (S (2 * length js + m))) by lia.
  rewrite put1_pre. cbn [bind]. replace (pre ++ [j * n0] ++ repeat 0 (S (2 * length js + m))) with ((pre ++ [j * n0]) ++ repeat 0 (S (2 * length js + m))) by (rewrite <- app_assoc; auto).
  replace (length pre + 1) with (length (pre ++ [j * n0])) by (rewrite app_length; auto). rewrite put1_pre. cbn [bind]. rewrite app_assoc.
  replace (length pre + 2) with (length ((pre ++ [j * n0]) ++ [(j + 1) * n0 - 1])) by (rewrite !app_length; cbn; lia). rewrite IH. rewrite <- !app_assoc. reflexivity.
Qed.
Lemma layers3_ok n01 b ks : forall pre m, layers3 n01 b ks (length pre) (pre ++ repeat 0 (length ks * length b + m)) = Ret (pre ++ flat_map (fun k => map (fun x => x + k * n01) b) ks ++ repeat 0 m).
Proof.
  induction ks as [|k ks IH]; intros pre m; [reflexivity|]. cbn [layers3 length]. replace (S (length ks) * length b + m) with (length (map (fun x => x + k * n01) b) + (length ks * length b + m)) by (rewrite map_length; lia).
  rewrite put_pre. cbn [bind]. rewrite app_assoc. replace (length pre + length b) with (length (pre ++ map (fun x => x + k * n01) b)) by (rewrite app_length, map_length; auto). rewrite IH. cbn [flat_map]. rewrite <- !app_assoc. reflexivity.
Qed.
Lemma put_end_pre pre v m : m = length v -> put_end (pre ++ repeat 0 m) v = Ret (pre ++ v).
Proof.
  intros ->. unfold put_end. rewrite app_length, repeat_length. replace (length pre + length v - length v) with (length pre) by lia. pose proof (put_pre pre v 0) as H. rewrite Nat.add_0_r in H. rewrite H. cbn [repeat]. rewrite app_nil_r. auto.
Qed.
Definition bdry2 (a b : nat) : list nat := seq 0 a ++ flat_map (row_ends a) (seq 1 (b - 2)) ++ map (fun x => x + a * (b - 1)) (seq 0 a).
Lemma row_ends_len a js : length (flat_map (row_ends a) js) = 2 * length js.
Proof. induction js as [|j js IH]; auto. cbn [flat_map]. rewrite app_length, IH. cbn. lia. Qed.
Lemma all_faces2_eq a b : 2 <= a -> 2 <= b -> all_faces2 [a; b] = Ret (bdry2 a b).
Proof.
  intros Ha Hb. unfold all_faces2, get_face. cbn [length Nat.leb Nat.ltb andb Nat.mul Nat.add assert_ bind lex_face]. unfold n_. cbn [nth]. rewrite !arange1, !Nat.sub_0_r. cbn [bind].
  pose proof (put_pre [] (seq 0 a) (2 * length (seq 1 (b - 2)) + a)) as P1. cbn [app length] in P1. rewrite !seq_length in P1.
  replace (a + (a + 0) + (b + (b + 0)) - 4) with (a + (2 * (b - 2) + a)) by lia. rewrite P1. cbn [bind]. unfold range. replace (b - 1 - 1) with (b - 2) by lia.
  pose proof (rows2_ok a (seq 1 (b - 2)) (seq 0 a) a) as R. rewrite !seq_length in R. rewrite R. cbn [bind].
  rewrite app_assoc. rewrite put_end_pre by (rewrite map_length, seq_length; auto). unfold bdry2. rewrite <- app_assoc. auto.
Qed.
Lemma bdry2_len a b : 2 <= b -> length (bdry2 a b) = 2 * a + 2 * (b - 2).
Proof. intros. unfold bdry2. rewrite !app_length, row_ends_len, map_length, !seq_length. lia. Qed.
Definition bdry3 (a b c : nat) : list nat := seq 0 (a * b) ++ flat_map (fun k => map (fun x => x + k * (a * b)) (bdry2 a b)) (seq 1 (c - 2)) ++ map (fun x => x + a * b * (c - 1)) (seq 0 (a * b)).
Lemma all_faces3_eq a b c : 2 <= a -> 2 <= b -> 2 <= c -> all_faces3 [a; b; c] = Ret (bdry3 a b c).
Proof.
  intros Ha Hb Hc. unfold all_faces3. cbn [firstn]. rewrite all_faces2_eq by auto. unfold get_face. cbn [length Nat.leb Nat.ltb andb Nat.mul Nat.add assert_ bind lex_face]. unfold n_. cbn [nth]. rewrite !arange1, !Nat.sub_0_r. cbn [bind].
  pose proof (put_pre [] (seq 0 (a * b)) (length (seq 1 (c - 2)) * length (bdry2 a b) + a * b)) as P1. cbn [app length] in P1. rewrite !seq_length in P1.
  match goal with |- context [repeat 0 ?k] => replace k with (a * b + ((c - 2) * length (bdry2 a b) + a * b)) end.
  2: { rewrite bdry2_len by auto. replace (a + b - 2 + (a + b - 2 + 0)) with (2 * a + 2 * (b - 2)) by lia. ring. }
  rewrite P1. cbn [bind]. unfold range. replace (c - 1 - 1) with (c - 2) by lia.
  pose proof (layers3_ok (a * b) (bdry2 a b) (seq 1 (c - 2)) (seq 0 (a * b)) (a * b)) as R. rewrite !seq_length in R. rewrite R. cbn [bind].
  rewrite app_assoc. rewrite put_end_pre by (rewrite map_length, seq_length; auto). unfold bdry3. rewrite <- app_assoc. auto.
Qed.
Lemma bd1_iff a i : on_boundary [a] [i] <-> i = 0 \/ i = a - 1.
Proof. unfold on_boundary. cbn [length]. split; [intros ([|d] & Hd & H); [auto|lia]|intros H; exists 0; split; auto]. Qed.
Lemma bd2_iff a b i j : on_boundary [a; b] [i; j] <-> (i = 0 \/ i = a - 1) \/ (j = 0 \/ j = b - 1).
Proof. unfold on_boundary. cbn [length]. split; [intros ([|[|d]] & Hd & H); [auto|auto|lia]|intros [H|H]; [exists 0|exists 1]; split; auto]. Qed.
Lemma bd3_iff a b c i j k : on_boundary [a; b; c] [i; j; k] <-> on_boundary [a; b] [i; j] \/ (k = 0 \/ k = c - 1).
Proof. rewrite bd2_iff. unfold on_boundary. cbn [length]. split; [intros ([|[|[|d]]] & Hd & H); [auto|auto|auto|lia]|intros [[H|H]|H]; [exists 0|exists 1|exists 2]; split; auto]. Qed.
Lemma bdry1_ok a : 2 <= a -> lists_exactly [a] (on_boundary [a]) [0; a - 1].
Proof.
  intros Ha. apply lists_intro; [repeat constructor; lia|]. intros x. split.
  - intros [<-|[<-|[]]]; [exists [0]|exists [a - 1]]; (split; [apply index1; eexists; split; [reflexivity|lia]|]); (split; [apply bd1_iff; auto|cbn; lia]).
  - intros (t & It & F & ->). apply index1 in It. destruct It as (i & -> & Hi). apply bd1_iff in F. cbn. lia.
Qed.
Lemma row_ends_in a b x : In x (flat_map (row_ends a) (seq 1 (b - 2))) <-> exists j, 0 < j < b - 1 /\ (x = j * a \/ x = (j + 1) * a - 1).
Proof.
  rewrite in_flat_map. split.
  - intros (j & Hj & Hx). apply in_seq in Hj. exists j. split; [lia|]. destruct Hx as [<-|[<-|[]]]; auto.
  - intros (j & Hj & Hx). exists j. split; [apply in_seq; lia|]. destruct Hx as [->| ->]; cbn; auto.
Qed.
Lemma row_bound a j m : j < m -> (j + 1) * a <= m * a.
Proof. intros. apply Nat.mul_le_mono_r. lia. Qed.
Lemma bdry2_ok a b : 2 <= a -> 2 <= b -> lists_exactly [a; b] (on_boundary [a; b]) (bdry2 a b).
Proof.
  intros Ha Hb. apply lists_intro.
  - unfold bdry2. apply ss_app; [apply ss_seq|apply ss_app; [|apply ss_map; [intros; lia|apply ss_seq]|]|].
    + apply ss_fm; [apply ss_seq|intros j _; repeat constructor; nia|]. intros x y u v _ _ L [<-|[<-|[]]] [<-|[<-|[]]]; pose proof (row_bound a x y L); nia.
    + intros x y Hx Hy. apply row_ends_in in Hx. destruct Hx as (j & Hj & Hx). apply in_map_iff in Hy. destruct Hy as (i & <- & _). pose proof (row_bound a j (b - 1) ltac:(lia)). nia.
    + intros x y Hx Hy. apply in_seq in Hx. apply in_app_iff in Hy. destruct Hy as [Hy|Hy].
      * apply row_ends_in in Hy. destruct Hy as (j & Hj & Hy). assert (1 * a <= j * a) by (apply Nat.mul_le_mono_r; lia). nia.
      * apply in_map_iff in Hy. destruct Hy as (i & <- & _). assert (a * 1 <= a * (b - 1)) by (apply Nat.mul_le_mono_l; lia). lia.
  - intros x. unfold bdry2. rewrite !in_app_iff, row_ends_in, in_map_iff, in_seq. split.
    + intros [H|[(j & Hj & [->| ->])|(i & <- & Hi)]].
      * exists [x; 0]. split; [apply index2; exists x, 0; repeat split; lia|]. split; [apply bd2_iff; auto|cbn [flat]; lia].
      * exists [0; j]. split; [apply index2; exists 0, j; repeat split; lia|]. split; [apply bd2_iff; auto|cbn [flat]; lia].
      * exists [a - 1; j]. split; [apply index2; exists (a - 1), j; repeat split; lia|]. split; [apply bd2_iff; auto|cbn [flat]; nia].
      * apply in_seq in Hi. exists [i; b - 1]. split; [apply index2; exists i, (b - 1); repeat split; lia|]. split; [apply bd2_iff; auto|cbn [flat]; lia].
    + intros (t & It & F & ->). apply index2 in It. destruct It as (i & j & -> & Hi & Hj). apply bd2_iff in F. cbn [flat].
      destruct (Nat.eq_dec j 0) as [->|Nj]; [left; lia|]. destruct (Nat.eq_dec j (b - 1)) as [->|Mj]; [right; right; exists i; split; [lia|apply in_seq; lia]|].
      right. left. exists j. split; [lia|]. destruct F as [[->| ->]|[F|F]]; [left; lia|right; nia|lia|lia].
Qed.
Lemma bdry3_ok a b c : 2 <= a -> 2 <= b -> 2 <= c -> lists_exactly [a; b; c] (on_boundary [a; b; c]) (bdry3 a b c).
Proof.
  intros Ha Hb Hc. destruct (bdry2_ok a b Ha Hb) as (SS & I).
  assert (Lt : forall x, In x (bdry2 a b) -> x < a * b). { intros x Hx. apply I in Hx. destruct Hx as (t & It & _ & ->). pose proof (flat_lt _ _ It) as L. unfold nprod in L. cbn [fold_right] in L. lia. }
  apply lists_intro.
  - unfold bdry3. apply ss_app; [apply ss_seq|apply ss_app; [|apply ss_map; [intros; lia|apply ss_seq]|]|].
    + apply ss_fm; [apply ss_seq|intros j _; apply ss_map; auto; intros; lia|]. intros x y u v _ _ L Hu Hv. apply in_map_iff in Hu, Hv. destruct Hu as (p & <- & Hp), Hv as (q & <- & Hq). apply Lt in Hp, Hq. pose proof (row_bound (a * b) x y L). lia.
    + intros x y Hx Hy. apply in_flat_map in Hx. destruct Hx as (k & Hk & Hx). apply in_map_iff in Hx, Hy. destruct Hx as (p & <- & Hp), Hy as (i & <- & _). apply Lt in Hp. apply in_seq in Hk. pose proof (row_bound (a * b) k (c - 1) ltac:(lia)). lia.
    + intros x y Hx Hy. apply in_seq in Hx. apply in_app_iff in Hy. destruct Hy as [Hy|Hy].
      * apply in_flat_map in Hy. destruct Hy as (k & Hk & Hy). apply in_map_iff in Hy. destruct Hy as (p & <- & _). apply in_seq in Hk. assert (1 * (a * b) <= k * (a * b)) by (apply Nat.mul_le_mono_r; lia). lia.
      * apply in_map_iff in Hy. destruct Hy as (i & <- & _). assert (a * b * 1 <= a * b * (c - 1)) by (apply Nat.mul_le_mono_l; lia). lia.
  - intros x. unfold bdry3. rewrite !in_app_iff, in_flat_map, in_map_iff, in_seq. split.
    + intros [H|[(k & Hk & Hx)|(p & <- & Hp)]].
      * destruct (digits2 a b x) as (i & j & Hi & Hj & ->); [lia|lia|]. exists [i; j; 0]. split; [apply index3; exists i, j, 0; repeat split; lia|]. split; [apply bd3_iff; auto|cbn [flat]; ring].
      * apply in_map_iff in Hx. destruct Hx as (p & <- & Hp). apply I in Hp. destruct Hp as (t & It & F & ->). apply index2 in It. destruct It as (i & j & -> & Hi & Hj). apply in_seq in Hk.
        exists [i; j; k]. split; [apply index3; exists i, j, k; repeat split; lia|]. split; [apply bd3_iff; auto|cbn [flat]; ring].
      * apply in_seq in Hp. destruct (digits2 a b p) as (i & j & Hi & Hj & ->); [lia|lia|]. exists [i; j; c - 1]. split; [apply index3; exists i, j, (c - 1); repeat split; lia|]. split; [apply bd3_iff; auto|cbn [flat]; ring].
    + intros (t & It & F & ->). apply index3 in It. destruct It as (i & j & k & -> & Hi & Hj & Hk). apply bd3_iff in F. cbn [flat].
      assert (B : i + a * j < a * b) by nia.
      destruct (Nat.eq_dec k 0) as [->|Nk]; [left; lia|]. destruct (Nat.eq_dec k (c - 1)) as [->|Mk]; [right; right; exists (i + a * j); split; [lia|apply in_seq; lia]|].
      right. left. exists k. split; [apply in_seq; lia|]. apply in_map_iff. exists (i + a * j). split; [lia|]. apply I. exists [i; j]. split; [apply index2; exists i, j; auto|]. split; [|cbn [flat]; ring]. destruct F as [F|F]; [auto|lia].
Qed.
