(** Lemmas for the generated kernel: derivatives, elements, registry, scratch memory. *)
From Coq Require Import List ZArith Reals Lia Permutation.
From Verif Require Import M_PyBase M_PyPack M_PyKernel S_PyKernel.
Import ListNotations.
Local Open Scope nat_scope.

(** ** Positions in concatenations *)
Lemma nth_flat_const : forall (A B : Type) (f : A -> list B) (m : nat) (l : list A) (i j : nat) (x : A),
  (forall y, In y l -> length (f y) = m) -> nth_error l i = Some x -> j < m -> nth_error (flat_map f l) (i * m + j) = nth_error (f x) j.
Proof.
  intros A B f m l. induction l as [|y l IH]; intros i j x L E J; destruct i; try discriminate.
  - injection E as <-. cbn [flat_map]. cbn [Nat.mul Nat.add]. rewrite nth_error_app1; [reflexivity|]. rewrite (L y (or_introl eq_refl)). exact J.
  - cbn [flat_map]. rewrite nth_error_app2; [|rewrite (L y (or_introl eq_refl)); nia].
    rewrite (L y (or_introl eq_refl)). replace (S i * m + j - m) with (i * m + j) by nia. apply IH; auto. intros z Z. apply L. right; exact Z.
Qed.
Lemma length_flat_const : forall (A B : Type) (f : A -> list B) (m : nat) (l : list A),
  (forall y, In y l -> length (f y) = m) -> length (flat_map f l) = length l * m.
Proof.
  intros A B f m l. induction l as [|y l IH]; intros L; [reflexivity|]. cbn [flat_map length]. rewrite app_length, IH.
  - rewrite (L y (or_introl eq_refl)). lia.
  - intros z Z. apply L. right; exact Z.
Qed.
Lemma nth_flat_seq : forall (B : Type) (f : nat -> list B) (N n j : nat),
  n < N -> j < length (f n) -> nth_error (flat_map f (seq 0 N)) (list_sum (map (fun i => length (f i)) (seq 0 n)) + j) = nth_error (f n) j.
Proof.
  intros B f N n j HN HJ. replace N with (n + (1 + (N - n - 1))) by lia.
  rewrite seq_app, flat_map_app, nth_error_app2.
  - assert (E : length (flat_map f (seq 0 n)) = list_sum (map (fun i => length (f i)) (seq 0 n))).
    { generalize (seq 0 n). intros l. induction l as [|x l IH]; [reflexivity|]. cbn [flat_map map list_sum fold_right]. rewrite app_length, IH. reflexivity. }
    rewrite E. replace (list_sum (map (fun i => length (f i)) (seq 0 n)) + j - list_sum (map (fun i => length (f i)) (seq 0 n))) with j by lia.
    cbn [Nat.add seq flat_map]. rewrite nth_error_app1; [reflexivity|exact HJ].
  - assert (E : length (flat_map f (seq 0 n)) = list_sum (map (fun i => length (f i)) (seq 0 n))).
    { generalize (seq 0 n). intros l. induction l as [|x l IH]; [reflexivity|]. cbn [flat_map map list_sum fold_right]. rewrite app_length, IH. reflexivity. }
    rewrite E. lia.
Qed.
Lemma length_flat_seq : forall (B : Type) (f : nat -> list B) (N : nat),
  length (flat_map f (seq 0 N)) = list_sum (map (fun i => length (f i)) (seq 0 N)).
Proof.
  intros B f N. generalize (seq 0 N). intros l. induction l as [|x l IH]; [reflexivity|]. cbn [flat_map map list_sum fold_right]. rewrite app_length, IH. reflexivity.
Qed.
Lemma list_sum_app' : forall l l', list_sum (l ++ l') = list_sum l + list_sum l'.
Proof. induction l as [|x l IH]; intros l'; [reflexivity|]. unfold list_sum in *. cbn [app fold_right]. rewrite IH. lia. Qed.

(** ** Derivatives *)
Fixpoint tri (n : nat) : nat := match n with 0 => 0 | S n' => S n' + tri n' end.
Fixpoint tet (n : nat) : nat := match n with 0 => 0 | S n' => tri (S n') + tet n' end.
Lemma tri_2 : forall n, tri n * 2 = n * (n + 1).
Proof. induction n as [|n IH]; [reflexivity|]. change (tri (S n)) with (S n + tri n). nia. Qed.
Lemma tet_6 : forall n, tet n * 6 = n * (n + 1) * (n + 2).
Proof. induction n as [|n IH]; [reflexivity|]. change (tet (S n)) with (tri (S n) + tet n). pose proof (tri_2 (S n)). nia. Qed.
Lemma tri_div : forall n, n * (n + 1) / 2 = tri n. Proof. intros n. rewrite <- tri_2. apply Nat.div_mul. lia. Qed.
Lemma tet_div : forall n, n * (n + 1) * (n + 2) / 6 = tet n. Proof. intros n. rewrite <- tet_6. apply Nat.div_mul. lia. Qed.
Lemma sum_seq_S : forall (f : nat -> nat) n, list_sum (map f (seq 0 (S n))) = list_sum (map f (seq 0 n)) + f n.
Proof. intros f n. rewrite seq_S, map_app, list_sum_app'. cbn. lia. Qed.
Lemma sum_tri : forall n, list_sum (map (fun i => S i) (seq 0 n)) = tri n.
Proof. induction n as [|n IH]; [reflexivity|]. rewrite sum_seq_S, IH. cbn [tri]. lia. Qed.
Lemma sum_tet : forall n, list_sum (map (fun i => tri (S i)) (seq 0 n)) = tet n.
Proof. induction n as [|n IH]; [reflexivity|]. rewrite sum_seq_S, IH. cbn [tet]. lia. Qed.
Lemma sum_ext' : forall (f g : nat -> nat) l, (forall x, f x = g x) -> list_sum (map f l) = list_sum (map g l).
Proof. intros f g l H. f_equal. apply map_ext. exact H. Qed.
Lemma comb_0 : forall n, comb n 0 = 1. Proof. destruct n; reflexivity. Qed.
Lemma comb_1 : forall n, comb n 1 = n.
Proof. induction n as [|n IH]; [reflexivity|]. change (comb (S n) 1) with (comb n 0 + comb n 1). rewrite IH, comb_0. lia. Qed.
Lemma comb_2 : forall n, comb (S n) 2 = tri n.
Proof. induction n as [|n IH]; [reflexivity|]. change (comb (S (S n)) 2) with (comb (S n) 1 + comb (S n) 2). rewrite IH, comb_1. reflexivity. Qed.
Lemma comb_3 : forall n, comb (S (S n)) 3 = tet n.
Proof. induction n as [|n IH]; [reflexivity|]. change (comb (S (S (S n))) 3) with (comb (S (S n)) 2 + comb (S (S n)) 3). rewrite IH, comb_2. reflexivity. Qed.
Lemma multi3_len : forall n, length (flat_map (fun m => map (fun r => [n - m; m - r; r]) (seq 0 (S m))) (seq 0 (S n))) = tri (S n).
Proof. intros n. rewrite length_flat_seq. rewrite (sum_ext' _ S); [apply sum_tri|]. intros x. rewrite map_length, seq_length. reflexivity. Qed.
Lemma multi_length : forall g nd, 1 <= g <= 3 -> length (multi g nd) = comb (nd + g) g.
Proof.
  intros g nd Hg. destruct g as [|[|[|[|g]]]]; try lia; unfold multi.
  - rewrite map_length, seq_length, comb_1. lia.
  - rewrite length_flat_seq, (sum_ext' _ S); [|intros x; rewrite map_length, seq_length; reflexivity]. rewrite sum_tri. replace (nd + 2) with (S (S nd)) by lia. rewrite comb_2. reflexivity.
  - rewrite length_flat_seq, (sum_ext' _ (fun i => tri (S i))); [|intros x; apply multi3_len]. rewrite sum_tet. replace (nd + 3) with (S (S (S nd))) by lia. rewrite comb_3. reflexivity.
Qed.
Lemma nth_map_seq : forall (B : Type) (f : nat -> B) N j, j < N -> nth_error (map f (seq 0 N)) j = Some (f j).
Proof.
  intros B f N j H. rewrite (map_nth_error f (d := j) j (seq 0 N)); [reflexivity|].
  rewrite (nth_error_nth' _ 0); [|rewrite seq_length; lia]. rewrite seq_nth; [reflexivity|lia].
Qed.
Lemma multi_index : forall g nd d, 1 <= g <= 3 -> length d = g -> list_sum d <= nd -> nth_error (multi g nd) (basix_index d) = Some d.
Proof.
  intros g nd d Hg Hl Hs. destruct g as [|[|[|[|g]]]]; try lia; unfold multi.
  - destruct d as [|p [|]]; try discriminate. cbn in Hs. cbn [basix_index]. rewrite (nth_map_seq _ (fun p => [p])); [reflexivity|lia].
  - destruct d as [|p [|q [|]]]; try discriminate. cbn in Hs. cbn [basix_index].
    rewrite (Nat.mul_comm (p + q + 1)), tri_div.
    pose proof (nth_flat_seq _ (fun n => map (fun q => [n - q; q]) (seq 0 (S n))) (S nd) (p + q) q ltac:(lia)) as H.
    rewrite (sum_ext' _ S) in H; [|intros x; rewrite map_length, seq_length; reflexivity]. rewrite sum_tri in H.
    rewrite H; [|rewrite map_length, seq_length; lia]. rewrite (nth_map_seq _ (fun q0 => [p + q - q0; q0])); [|lia]. repeat f_equal; lia.
  - destruct d as [|p [|q [|r [|]]]]; try discriminate. cbn in Hs. cbn [basix_index]. rewrite tet_div, tri_div.
    pose proof (nth_flat_seq _ (fun n => flat_map (fun m => map (fun r => [n - m; m - r; r]) (seq 0 (S m))) (seq 0 (S n))) (S nd) (p + q + r) (tri (q + r) + r) ltac:(lia)) as H.
    rewrite (sum_ext' _ (fun i => tri (S i))) in H; [|intros x; apply multi3_len]. rewrite sum_tet in H.
    rewrite Nat.add_assoc in H. rewrite H.
    + pose proof (nth_flat_seq _ (fun m => map (fun r0 => [p + q + r - m; m - r0; r0]) (seq 0 (S m))) (S (p + q + r)) (q + r) r ltac:(lia)) as H2.
      rewrite (sum_ext' _ S) in H2; [|intros x; rewrite map_length, seq_length; reflexivity]. rewrite sum_tri in H2.
      rewrite H2; [|rewrite map_length, seq_length; lia]. rewrite (nth_map_seq _ (fun r0 => [p + q + r - (q + r); q + r - r0; r0])); [|lia]. repeat f_equal; lia.
    + rewrite multi3_len. pose proof (tri_2 (q + r)). pose proof (tri_2 (S (p + q + r))). nia.
Qed.
Lemma multi_index_lt : forall g nd d, 1 <= g <= 3 -> length d = g -> list_sum d <= nd -> basix_index d < length (multi g nd).
Proof. intros g nd d A B C. apply nth_error_Some. rewrite multi_index; auto. discriminate. Qed.

(** ** Elements *)
Section ElementInd.
  Variable P : element -> Prop.
  Hypothesis Hb : forall k v, P (EBasix k v).
  Hypothesis Hk : forall k bs v, P (EBlocked k bs v).
  Hypothesis Hm : forall subs, Forall P subs -> P (EMixed subs).
  Fixpoint element_ind' (e : element) : P e :=
    match e with
    | EBasix k v => Hb k v
    | EBlocked k bs v => Hk k bs v
    | EMixed subs => Hm subs ((fix go l : Forall P l := match l with [] => Forall_nil P | x :: l' => Forall_cons x (element_ind' x) (go l') end) subs)
    end.
End ElementInd.
Lemma components_length : forall e, length (components e) = rvs e.
Proof.
  induction e as [k v|k bs v|subs IH] using element_ind'; cbn [components rvs]; rewrite ?map_length, ?seq_length; try reflexivity.
  induction subs as [|x l IHl]; [reflexivity|]. inversion IH as [|? ? Hx Hl]; subst. unfold list_sum in *. cbn [flat_map map fold_right]. rewrite app_length, Hx, IHl by exact Hl. reflexivity.
Qed.
Definition leaf (e : element) : Prop := match e with EMixed _ => False | _ => True end.
Section Elem.
  Variable evs : list Z -> nat.
  Lemma element_ok_mixed : forall subs, element_ok evs (EMixed subs) -> Forall (element_ok evs) subs.
  Proof. induction subs as [|x l IH]; intros H; [constructor|]. destruct H as [A B]. constructor; [exact A|apply IH; exact B]. Qed.
  Lemma resolve_ok : forall e c k j, element_ok evs e -> nth_error (components e) c = Some (k, j) ->
    exists e' c', resolve e c = Ret (e', c') /\ leaf e' /\ element_ok evs e' /\ nth_error (components e') c' = Some (k, j).
  Proof.
    induction e as [k0 v|k0 bs v|subs IH] using element_ind'; intros c k j OK E.
    - exists (EBasix k0 v), c. cbn [resolve]. repeat split; auto; apply OK.
    - exists (EBlocked k0 bs v), c. cbn [resolve]. repeat split; auto; apply OK.
    - apply element_ok_mixed in OK. cbn [resolve components] in *.
      assert (H : forall acc, acc <= c -> nth_error (flat_map components subs) (c - acc) = Some (k, j) ->
        exists e' c', (fix go (l : list element) (acc : nat) : outcome (element * nat) :=
           match l with
           | [] => Abort
           | s :: l' => if c <? acc + rvs s then resolve s (c - acc) else go l' (acc + rvs s)
           end) subs acc = Ret (e', c') /\ leaf e' /\ element_ok evs e' /\ nth_error (components e') c' = Some (k, j)).
      { clear E. induction subs as [|s l IHl]; intros acc A E.
        - cbn in E. destruct (c - acc); discriminate.
        - inversion IH as [|? ? Hs Hl]; subst. inversion OK as [|? ? Os Ol]; subst. cbn [flat_map] in E.
          destruct (Nat.ltb_spec c (acc + rvs s)) as [L|L].
          + rewrite nth_error_app1 in E by (rewrite components_length; lia). apply Hs; auto.
          + rewrite nth_error_app2 in E by (rewrite components_length; lia). rewrite components_length in E.
            apply IHl; auto. replace (c - (acc + rvs s)) with (c - acc - rvs s) by lia. exact E. }
      apply (H 0); [lia|]. rewrite Nat.sub_0_r. exact E.
  Qed.
End Elem.

(** ** Registry *)
Lemma key_eqb_eq : forall a b, key_eqb a b = true <-> a = b.
Proof. intros a b. unfold key_eqb. destruct (list_eq_dec Z.eq_dec a b); split; intros; congruence. Qed.
Lemma key_eqb_refl : forall a, key_eqb a a = true. Proof. intros a. apply key_eqb_eq. reflexivity. Qed.
(** The index points to the elements of the registry, and the registry has no others. *)
Definition reg_ok (valid : list Z -> bool) (s : shim) : Prop :=
  (forall k h, lookup k (s_idx s) = Some h <-> nth_error (s_reg s) h = Some k) /\ NoDup (s_reg s) /\ Forall (fun k => valid k = true) (s_reg s).
Lemma register_ok : forall valid s k, reg_ok valid s -> valid k = true ->
  exists h, snd (register valid s k) = Z.of_nat h /\ nth_error (s_reg (fst (register valid s k))) h = Some k
    /\ reg_ok valid (fst (register valid s k))
    /\ s_gen (fst (register valid s k)) = s_gen s /\ s_buf (fst (register valid s k)) = s_buf s /\ s_cap (fst (register valid s k)) = s_cap s.
Proof.
  intros valid s k [A [B C]] V. unfold register. destruct (lookup k (s_idx s)) as [h|] eqn:E.
  - exists h. cbn. repeat split; auto; try apply A; auto.
  - rewrite V. exists (length (s_reg s ++ [k]) - 1). rewrite app_length. cbn [length fst snd s_reg s_gen s_buf s_cap s_idx].
    replace (length (s_reg s) + 1 - 1) with (length (s_reg s)) by lia.
    assert (NI : ~ In k (s_reg s)).
    { intros I. apply In_nth_error in I. destruct I as [h I]. apply A in I. congruence. }
    repeat split; auto.
    + rewrite nth_error_app2 by lia. rewrite Nat.sub_diag. reflexivity.
    + cbn [s_idx lookup]. destruct (key_eqb k k0) eqn:K.
      * apply key_eqb_eq in K. subst k0. intros H; injection H as <-. cbn [s_reg]. rewrite nth_error_app2 by lia. rewrite Nat.sub_diag. reflexivity.
      * intros H. apply A in H. cbn [s_reg]. rewrite nth_error_app1; [exact H|]. apply nth_error_Some. congruence.
    + cbn [s_idx lookup s_reg]. intros H. destruct (Nat.lt_ge_cases h (length (s_reg s))) as [L|L].
      * rewrite nth_error_app1 in H by lia. destruct (key_eqb k k0) eqn:K; [|apply A; exact H].
        apply key_eqb_eq in K. subst k0. exfalso. apply NI. eapply nth_error_In; exact H.
      * rewrite nth_error_app2 in H by lia. destruct (h - length (s_reg s)) as [|m] eqn:D; [|destruct m; discriminate].
        cbn in H. injection H as <-. rewrite key_eqb_refl. f_equal. lia.
    + cbn [s_reg]. apply NoDup_app_remove_r with (l' := []) || idtac. apply Permutation_NoDup with (l := k :: s_reg s); [apply Permutation_cons_append|]. constructor; auto.
    + cbn [s_reg]. apply Forall_app. split; auto.
Qed.

(** ** Memory *)
Lemma load1_ok : forall s off x, nth_error (s_buf s) off = Some x -> load1 s (s_gen s) off = Ret x.
Proof. intros s off x H. unfold load1. rewrite Nat.eqb_refl, H. reflexivity. Qed.
Lemma store_ok : forall s off vals, off + length vals <= length (s_buf s) ->
  exists s', store s (s_gen s) off vals = Ret s' /\ s_gen s' = s_gen s /\ s_reg s' = s_reg s /\ s_idx s' = s_idx s /\ length (s_buf s') = length (s_buf s)
    /\ (forall i, i < length vals -> nth_error (s_buf s') (off + i) = nth_error vals i)
    /\ (forall p, p < off \/ off + length vals <= p -> nth_error (s_buf s') p = nth_error (s_buf s) p).
Proof.
  intros s off vals H. unfold store. rewrite Nat.eqb_refl. destruct (Nat.leb_spec (off + length vals) (length (s_buf s))) as [L|L]; [|lia].
  cbn [andb]. eexists. split; [reflexivity|]. cbn [with_buf s_gen s_reg s_idx s_buf].
  assert (F : length (firstn off (s_buf s)) = off) by (apply firstn_length_le; lia).
  repeat split.
  - rewrite !app_length, F, skipn_length. lia.
  - intros i Hi. rewrite nth_error_app2 by lia. rewrite F. replace (off + i - off) with i by lia. apply nth_error_app1. exact Hi.
  - intros p [Hp|Hp].
    + rewrite nth_error_app1 by lia. rewrite <- (firstn_skipn off (s_buf s)) at 2. rewrite nth_error_app1 by lia. reflexivity.
    + rewrite nth_error_app2 by lia. rewrite nth_error_app2 by lia. rewrite F.
      rewrite <- (firstn_skipn (off + length vals) (s_buf s)) at 2. rewrite nth_error_app2; rewrite firstn_length_le by lia; [f_equal; lia|lia].
Qed.
Lemma scratch_ok : forall grow s n, n <= length (s_buf (get_scratch grow s n)) /\ s_reg (get_scratch grow s n) = s_reg s /\ s_idx (get_scratch grow s n) = s_idx s.
Proof.
  intros grow s n. unfold get_scratch. destruct (Nat.ltb_spec (length (s_buf s)) n) as [L|L]; [|repeat split; lia || reflexivity].
  destruct (n <=? s_cap s); cbn; rewrite app_length, repeat_length; repeat split; lia || reflexivity.
Qed.
(** The copy loop, when the source precedes the destination. *)
Lemma repack_ok : forall s o1 o2 n funcs didx stride vs vaxis l,
  (forall iq kd, In (iq, kd) l -> kd < funcs /\ o1 + (iq * funcs + kd) < length (s_buf s) /\ o2 + (didx * n * stride + iq * stride + kd * vs + vaxis) < o1) ->
  exists s', repack_loop s (s_gen s) o1 (s_gen s) o2 n funcs didx stride vs vaxis l = Ret s'
    /\ s_gen s' = s_gen s /\ s_reg s' = s_reg s /\ s_idx s' = s_idx s /\ length (s_buf s') = length (s_buf s)
    /\ (forall p, (forall iq kd, In (iq, kd) l -> p <> o1 + (iq * funcs + kd)) -> nth_error (s_buf s') p = nth_error (s_buf s) p)
    /\ (forall iq kd, In (iq, kd) l -> nth_error (s_buf s') (o1 + (iq * funcs + kd)) = nth_error (s_buf s) (o2 + (didx * n * stride + iq * stride + kd * vs + vaxis))).
Proof.
  intros s o1 o2 n funcs didx stride vs vaxis l. revert s. induction l as [|[iq kd] l IH]; intros s H.
  - exists s. cbn. repeat split; auto. intros ? ? [].
  - cbn [repack_loop]. destruct (H iq kd (or_introl eq_refl)) as [Hk [Hd Hs]].
    destruct (nth_error (s_buf s) (o2 + (didx * n * stride + iq * stride + kd * vs + vaxis))) as [x|] eqn:E.
    2:{ apply nth_error_None in E. lia. }
    rewrite (load1_ok _ _ _ E). cbn [bind].
    destruct (store_ok s (o1 + (iq * funcs + kd)) [x]) as [s1 [E1 [G1 [R1 [I1 [L1 [W1 K1]]]]]]]; [cbn; lia|]. rewrite E1. cbn [bind].
    destruct (IH s1) as [s2 [E2 [G2 [R2 [I2 [L2 [F2 W2]]]]]]].
    { intros a b Hab. rewrite L1. apply H. right; exact Hab. }
    rewrite G1 in E2. rewrite E2. exists s2. split; [reflexivity|]. repeat split; try congruence.
    + intros p Hp. rewrite F2; [|intros a b Hab; apply Hp; right; exact Hab]. apply K1. cbn. specialize (Hp iq kd (or_introl eq_refl)). lia.
    + assert (SRC : forall a b, In (a, b) ((iq, kd) :: l) -> nth_error (s_buf s1) (o2 + (didx * n * stride + a * stride + b * vs + vaxis)) = nth_error (s_buf s) (o2 + (didx * n * stride + a * stride + b * vs + vaxis))).
      { intros a b Hab. destruct (H a b Hab) as [_ [_ Q]]. apply K1. left. lia. }
      intros a b [Hab|Hab].
      * injection Hab as <- <-. destruct (in_dec (fun x y : nat * nat => ltac:(decide equality; apply Nat.eq_dec) : {x = y} + {x <> y}) (iq, kd) l) as [I|NI].
        -- rewrite (W2 _ _ I). apply SRC. left; reflexivity.
        -- rewrite F2.
           ++ pose proof (W1 0 ltac:(cbn; lia)) as W. rewrite Nat.add_0_r in W. rewrite W. cbn [nth_error]. symmetry. exact E.
           ++ intros c d Hcd EQ. destruct (H c d (or_intror Hcd)) as [Hd' _].
              assert (c = iq /\ d = kd) as [-> ->]; [|contradiction].
              assert (EQ' : iq * funcs + kd = c * funcs + d) by lia.
              assert (c = iq) by nia. subst c. split; [reflexivity|lia].
      * rewrite (W2 _ _ Hab). apply SRC. right; exact Hab.
Qed.
