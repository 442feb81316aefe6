From Coq Require Import List Arith Bool Lia ZArith Permutation Reals Lra.
From Verif Require Import M_PyBase M_PyNodes M_PyTp M_PyMesh M_PyTpMesh S_PyTp S_PyTpMesh L_PyNodes L_PyTp L_PyTp2 L_PyTp3 L_PyTpMesh L_PyTpMesh2.
Import ListNotations.
Local Close Scope R_scope. Local Close Scope Z_scope. Local Open Scope nat_scope.

Section Points.
  Variables (fresh : nat -> R) (d : nat) (b : list R) (n : nat).
  Hypothesis Hd : 1 <= d.
  Hypothesis Hn : 1 <= n.
  Hypothesis Lb : length b = n + 1.
  Definition pt_val (p : nat) : R := ((1 - INR (p mod d) / INR d) * nth (p / d) b 0 + INR (p mod d) / INR d * nth (p / d + 1) b 0)%R.
  Lemma stride_zero (q i : nat) : i < d -> i <= q -> ((q - i) mod d =? 0) = (q mod d =? i).
  Proof.
    intros Hi Hq. pose proof (Nat.div_mod (q - i) d ltac:(lia)) as E. pose proof (Nat.mod_upper_bound (q - i) d ltac:(lia)) as M. set (r := (q - i) mod d) in *. set (k := (q - i) / d) in *.
    pose proof (Nat.div_mod q d ltac:(lia)) as E'. pose proof (Nat.mod_upper_bound q d ltac:(lia)) as M'. set (r' := q mod d) in *. set (k' := q / d) in *.
    destruct (Nat.eqb_spec r 0), (Nat.eqb_spec r' i); auto; exfalso.
    - assert (k' = k) by nia. nia.
    - assert (k' = k) by nia. nia.
  Qed.
  Lemma stride_div (q i : nat) : i < d -> i <= q -> q mod d = i -> (q - i) / d = q / d.
  Proof. intros Hi Hq E. pose proof (Nat.div_mod q d ltac:(lia)) as D. rewrite E in D. replace (q - i) with (q / d * d) by lia. apply Nat.div_mul. lia. Qed.
  Lemma stride_ok i vals arr : i < d -> length arr = n * d + 1 -> length vals = (if i =? 0 then n + 1 else n) ->
    exists a, set_stride i d vals arr = Ret a /\ length a = n * d + 1 /\ forall p, p < n * d + 1 -> nth p a 0%R = if p mod d =? i then nth (p / d) vals 0%R else nth p arr 0%R.
  Proof.
    intros Hi La Lv. unfold set_stride. rewrite La.
    assert (C : (n * d + 1 - i + (d - 1)) / d = length vals).
    { rewrite Lv. destruct (Nat.eqb_spec i 0) as [->|N].
      - replace (n * d + 1 - 0 + (d - 1)) with ((n + 1) * d) by nia. apply Nat.div_mul. lia.
      - replace (n * d + 1 - i + (d - 1)) with (d - i + n * d) by nia. rewrite Nat.div_add by lia. rewrite Nat.div_small by lia. lia. }
    rewrite C, Nat.eqb_refl. cbn [orb]. eexists. split; [reflexivity|]. split; [rewrite map_length, seq_length; reflexivity|].
    intros p Hp. rewrite (nth_map_at _ _ _ 0) by (rewrite seq_length; auto). rewrite seq_nth by auto. cbn [Nat.add].
    destruct (Nat.leb_spec i p) as [L|L]; cbn [andb].
    - rewrite stride_zero by auto. destruct (Nat.eqb_spec (p mod d) i) as [E|E]; [|reflexivity]. rewrite stride_div by auto. f_equal. destruct (Nat.eqb_spec (length vals) 1) as [V|V]; [|reflexivity].
      rewrite V in Lv. destruct (Nat.eqb_spec i 0); [lia|]. symmetry. apply Nat.div_small. rewrite <- Lv in Hp. destruct (Nat.eq_dec p d) as [->|]; [rewrite Nat.mod_same in E by lia; lia|lia].
    - rewrite (Nat.mod_small p d) by lia. destruct (Nat.eqb_spec p i); [lia|reflexivity].
  Qed.
  Lemma removelast_nth (l : list R) i : i + 1 < length l -> nth i (removelast l) 0%R = nth i l 0%R.
  Proof. revert i. induction l as [|x l IH]; intros i H; [cbn in H; lia|]. destruct l as [|y l]; [cbn in H; lia|]. destruct i as [|i]; [reflexivity|]. cbn [removelast nth]. apply IH. cbn in *. lia. Qed.
  Lemma removelast_len (l : list R) : length (removelast l) = length l - 1.
  Proof. induction l as [|x l IH]; [reflexivity|]. destruct l as [|y l]; [reflexivity|]. cbn [removelast length] in *. rewrite IH. lia. Qed.
  Lemma comb_len u v : length (combine2 u v (removelast b) (tl b)) = n.
  Proof. unfold combine2. rewrite map_length, combine_length, removelast_len. destruct b as [|x b']; cbn in *; lia. Qed.
  Lemma comb_nth u v i : i < n -> nth i (combine2 u v (removelast b) (tl b)) 0%R = (u * nth i b 0 + v * nth (i + 1) b 0)%R.
  Proof.
    intros Hi. unfold combine2. assert (L1 : length (removelast b) = n) by (rewrite removelast_len; lia). assert (L2 : length (tl b) = n) by (destruct b; cbn in *; lia).
    rewrite (nth_map_at _ _ _ (0%R, 0%R)) by (rewrite combine_length; lia). rewrite combine_nth by lia. cbn [fst snd]. rewrite removelast_nth by lia. rewrite Nat.add_1_r. destruct b; [cbn in Lb; lia|]. reflexivity.
  Qed.
  Lemma pts_loop k : forall s a, s + k <= d -> 1 <= s -> length a = n * d + 1 -> (forall p, p < n * d + 1 -> p mod d < s -> nth p a 0%R = pt_val p) ->
    exists r, fold_left (fun acc i => a <- acc ;; set_stride i d (combine2 (1 - INR i / INR d)%R (INR i / INR d)%R (removelast b) (tl b)) a) (seq s k) (Ret a) = Ret r
      /\ length r = n * d + 1 /\ (forall p, p < n * d + 1 -> p mod d < s + k -> nth p r 0%R = pt_val p).
  Proof.
    induction k as [|k IH]; intros s a Hs H1 La Ha; cbn [seq fold_left].
    - exists a. split; auto. split; auto. intros p Hp M. apply Ha; auto. lia.
    - cbn [bind]. destruct (stride_ok s (combine2 (1 - INR s / INR d)%R (INR s / INR d)%R (removelast b) (tl b)) a) as (a' & E & La' & V); auto; try lia.
      { rewrite comb_len. destruct (Nat.eqb_spec s 0); lia. }
      rewrite E. destruct (IH (S s) a') as (r & Er & Lr & Vr); auto; try lia.
      + intros p Hp M. rewrite V by auto. destruct (Nat.eqb_spec (p mod d) s) as [Es|Es]; [|apply Ha; auto; lia].
        rewrite comb_nth. { unfold pt_val. rewrite Es. reflexivity. }
        apply Nat.div_lt_upper_bound; [lia|]. destruct (Nat.eq_dec p (n * d)) as [->|]; [rewrite Nat.mod_mul in Es by lia; lia|nia].
      + exists r. split; auto. split; auto. intros p Hp M. apply Vr; auto. lia.
  Qed.
  Lemma pts_ok : exists r, pts_of_breaks fresh d b = Ret r /\ length r = n * d + 1 /\ (forall p, p < n * d + 1 -> nth p r 0%R = pt_val p).
  Proof.
    unfold pts_of_breaks. rewrite Lb. replace (1 <=? n + 1) with true by (symmetry; apply Nat.leb_le; lia). cbn [assert_]. replace (n + 1 - 1) with n by lia.
    destruct (stride_ok 0 b (map fresh (seq 0 (n * d + 1)))) as (a & E & La & V); [lia|rewrite map_length, seq_length; auto|auto|]. rewrite E. cbn [bind].
    destruct (pts_loop (d - 1) 1 a) as (r & Er & Lr & Vr); auto; try lia.
    { intros p Hp M. rewrite V by auto. replace (p mod d) with 0 by lia. cbn [Nat.eqb]. unfold pt_val. replace (p mod d) with 0 by lia. cbn [INR]. unfold Rdiv. rewrite !Rmult_0_l. lra. }
    exists r. split; auto. split; auto. intros p Hp. apply Vr; auto. pose proof (Nat.mod_upper_bound p d ltac:(lia)). lia.
  Qed.
  Lemma pt_val_eq i j : i < n -> j <= d -> pt_val (d * i + j) = (nth i b 0 + INR j / INR d * (nth (i + 1) b 0 - nth i b 0))%R.
  Proof.
    intros Hi Hj. assert (D0 : INR d <> 0%R) by (apply not_0_INR; lia). unfold pt_val. destruct (Nat.eq_dec j d) as [->|N].
    - replace (d * i + d) with ((i + 1) * d) by ring. rewrite Nat.mod_mul, Nat.div_mul by lia. cbn [INR]. field. auto.
    - rewrite Nat.mul_comm. rewrite Nat.add_comm, Nat.mod_add, Nat.div_add by lia. rewrite Nat.mod_small, Nat.div_small by lia. cbn [Nat.add]. ring.
  Qed.
End Points.
(** With the degree 1 the breaks are the points. *)
Lemma pt_val1 b p : pt_val 1 b p = nth p b 0%R.
Proof. unfold pt_val. rewrite Nat.mod_1_r, Nat.div_1_r. cbn [INR]. unfold Rdiv. rewrite !Rmult_0_l. lra. Qed.

Lemma fm_nth {A B} (f : A -> list B) l k i j d d' : (forall x, In x l -> length (f x) = k) -> i < k -> j < length l -> nth (j * k + i) (flat_map f l) d = nth i (f (nth j l d')) d.
Proof.
  intros H Hi. revert j. induction l as [|x l IH]; intros j Hj; [cbn in Hj; lia|]. cbn [flat_map]. assert (length (f x) = k) by (apply H; cbn; auto). destruct j as [|j].
  - cbn [Nat.mul Nat.add nth]. apply app_nth1. lia.
  - rewrite app_nth2 by nia. replace (S j * k + i - length (f x)) with (j * k + i) by nia. cbn [nth]. apply IH; [intros; apply H; cbn; auto|cbn in Hj; lia].
Qed.
Lemma fm_len' {A B} (f : A -> list B) l k : (forall x, In x l -> length (f x) = k) -> length (flat_map f l) = length l * k.
Proof. induction l as [|x l IH]; intros H; cbn; [reflexivity|]. rewrite app_length, IH by (intros; apply H; cbn; auto). rewrite H by (cbn; auto). reflexivity. Qed.
Lemma const_nth {A B} (y : B) (p : list A) i d : i < length p -> nth i (map (fun _ => y) p) d = y.
Proof. revert i. induction p; intros [|i] H; cbn in *; try lia; auto. apply IHp. lia. Qed.
Lemma nodes_points pts : 2 <= length pts <= 3 -> exists nodes, nodes_from_points pts = Ret nodes /\ length nodes = nprod (map (@length R) pts) /\
  forall t, index (map (@length R) pts) t -> nth (flat (map (@length R) pts) t) nodes [] = map (fun d => nth (nth d t 0) (nth d pts []) 0%R) (seq 0 (length pts)).
Proof.
  intros H. assert (H' : 1 <= length pts <= 3) by lia. destruct (dim_cases pts H') as [(p & ->)|[(p & q & ->)|(p & q & r & ->)]]; [cbn in H; lia| |].
  - unfold nodes_from_points, meshgrid_columns. cbn [bind nth]. assert (L : length (flat_map (fun _ : R => p) q) = length q * length p) by (apply fm_len'; auto). rewrite L.
    eexists. split; [reflexivity|]. rewrite map_length, seq_length. split; [cbn; ring|].
    intros t It. cbn [map] in It. apply index2 in It. destruct It as (i & j & -> & Hi & Hj). cbn [map flat length seq nth]. rewrite Nat.mul_0_r, Nat.add_0_r.
    replace (i + length p * j) with (j * length p + i) by ring. assert (B : j * length p + i < length q * length p) by (apply Nat.lt_le_trans with (S j * length p); [cbn; lia|apply Nat.mul_le_mono_r; lia]).
    rewrite (nth_map_at _ _ _ 0) by (rewrite seq_length; auto). rewrite seq_nth by auto. cbn [Nat.add].
    rewrite (fm_nth _ _ (length p) _ _ _ 0%R) by auto. rewrite (fm_nth _ _ (length p) _ _ _ 0%R) by (auto; intros; apply map_length). rewrite const_nth by auto. reflexivity.
  - unfold nodes_from_points, meshgrid_columns. cbn [bind nth].
    set (a := length p) in *. set (b := length q) in *. set (c := length r) in *.
    assert (L1 : length (flat_map (fun _ : R => p) q) = b * a) by (apply fm_len'; auto).
    assert (L2 : length (flat_map (fun y : R => map (fun _ : R => y) p) q) = b * a) by (apply fm_len'; intros; apply map_length).
    assert (L3 : forall z : R, length (flat_map (fun _ : R => map (fun _ : R => z) p) q) = b * a) by (intros z; apply fm_len'; intros; apply map_length).
    assert (L : length (flat_map (fun _ : R => flat_map (fun _ : R => p) q) r) = c * (b * a)) by (apply fm_len'; auto). rewrite L.
    eexists. split; [reflexivity|]. rewrite map_length, seq_length. split; [cbn [map nprod fold_right]; fold a b c; ring|].
    intros t It. cbn [map] in It. apply index3 in It. destruct It as (i & j & k & -> & Hi & Hj & Hk). fold a in Hi. fold b in Hj. fold c in Hk. cbn [map flat length seq nth]. fold a b c. rewrite Nat.mul_0_r, Nat.add_0_r.
    replace (i + a * (j + b * k)) with (k * (b * a) + (j * a + i)) by ring. assert (B1 : j * a + i < b * a) by (apply Nat.lt_le_trans with (S j * a); [cbn; lia|apply Nat.mul_le_mono_r; lia]).
    assert (B : k * (b * a) + (j * a + i) < c * (b * a)) by (apply Nat.lt_le_trans with (S k * (b * a)); [rewrite Nat.mul_succ_l; lia|apply Nat.mul_le_mono_r; lia]).
    rewrite (nth_map_at _ _ _ 0) by (rewrite seq_length; auto). rewrite seq_nth by auto. cbn [Nat.add].
    rewrite (fm_nth _ _ (b * a) _ _ _ 0%R) by auto. rewrite (fm_nth _ _ (b * a) _ _ _ 0%R) by auto. rewrite (fm_nth _ _ (b * a) _ _ _ 0%R) by auto.
    rewrite (fm_nth _ _ a _ _ _ 0%R) by auto. rewrite (fm_nth _ _ a _ _ _ 0%R) by (auto; intros; apply map_length). rewrite (fm_nth _ _ a _ _ _ 0%R) by (auto; intros; apply map_length). rewrite !const_nth by auto. reflexivity.
Qed.
