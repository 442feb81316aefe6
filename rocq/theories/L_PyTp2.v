From Coq Require Import List Arith Bool Lia Permutation Sorting.Sorted.
From Verif Require Import M_PyBase M_PyNodes M_PyTp S_PyTp L_PyNodes L_PyTp.
Import ListNotations.
Local Open Scope nat_scope.

(** ** Edges of the hexahedron *)
Lemma edge_w a b c i j : i < a -> j < b -> lists_exactly [a; b; c] (fun t => nth 0 t 0 = i /\ nth 1 t 0 = j) (arange (i + a * j) (a * (b * (c * 1))) (a * b)).
Proof.
  intros Hi Hj. apply lists_intro; [apply arange_ss; nia|]. intros x. rewrite arange_in by nia. split.
  - intros (k & -> & Hk). assert (k < c) by (destruct (le_lt_dec c k) as [X|X]; auto; exfalso; assert (c * (a * b) <= k * (a * b)) by (apply Nat.mul_le_mono_r; auto); lia).
    exists [i; j; k]. split; [apply index3; exists i, j, k; repeat split; auto|]. split; [split; reflexivity|cbn [flat]; ring].
  - intros (t & It & (F & G) & ->). apply index3 in It. destruct It as (i' & j' & k & -> & Hi' & Hj' & Hk). cbn in F, G. subst. cbn [flat]. exists k. split; [ring|].
    assert (i + a * j < a * b) by nia. assert (S k <= c) by lia. assert (S k * (a * b) <= c * (a * b)) by (apply Nat.mul_le_mono_r; auto). nia.
Qed.
Lemma edge_v a b c i k : i < a -> k < c -> lists_exactly [a; b; c] (fun t => nth 0 t 0 = i /\ nth 2 t 0 = k) (arange (i + a * (b * k)) (i + a * (b * k) + a * b) a).
Proof.
  intros Hi Hk. apply lists_intro; [apply arange_ss; nia|]. intros x. rewrite arange_in by nia. split.
  - intros (j & -> & Hj). exists [i; j; k]. split; [apply index3; exists i, j, k; repeat split; auto; nia|]. split; [split; reflexivity|cbn [flat]; ring].
  - intros (t & It & (F & G) & ->). apply index3 in It. destruct It as (i' & j & k' & -> & Hi' & Hj & Hk'). cbn in F, G. subst. cbn [flat]. exists j. split; [ring|]. nia.
Qed.
Lemma edge_u a b c j k : j < b -> k < c -> lists_exactly [a; b; c] (fun t => nth 1 t 0 = j /\ nth 2 t 0 = k) (arange (a * (j + b * k)) (a * (j + b * k) + a) 1).
Proof.
  intros Hj Hk. apply lists_intro; [apply arange_ss; nia|]. intros x. rewrite arange_in by nia. split.
  - intros (i & -> & Hi). exists [i; j; k]. split; [apply index3; exists i, j, k; repeat split; auto; nia|]. split; [split; reflexivity|cbn [flat]; ring].
  - intros (t & It & (F & G) & ->). apply index3 in It. destruct It as (i & j' & k' & -> & Hi & Hj' & Hk'). cbn in F, G. subst. cbn [flat]. exists i. split; [ring|]. nia.
Qed.
Lemma dims3 a b c : 0 < a -> 0 < b -> 0 < c -> forall d, d < length [a; b; c] -> 0 < nth d [a; b; c] 0.
Proof. intros Ha Hb Hc [|[|[|d]]]; cbn; lia. Qed.
Lemma lex_edge_ok a b c e : 0 < a -> 0 < b -> 0 < c -> e < 12 ->
  exists l, lex_edge3 [a; b; c] e = Ret l /\ lists_exactly [a; b; c] (on_entity [a; b; c] (nth e lex_edges [])) l.
Proof.
  intros Ha Hb Hc He. pose proof (dims3 a b c Ha Hb Hc) as D. unfold lex_edge3.
  do 12 (destruct e as [|e]; [
    cbn [Nat.ltb Nat.leb assert_ Nat.sub pat nth_error bind];
    rewrite get_corner_ok by (auto; cbn; lia); cbn [bind]; eexists; (split; [reflexivity|]);
    cbn [length map seq flat]; unfold n_, nprod; cbn [nth fold_right];
    match goal with |- context [end_of [a; b; c] 0 ?u] => set (i := end_of [a; b; c] 0 u) end;
    match goal with |- context [end_of [a; b; c] 1 ?u] => set (j := end_of [a; b; c] 1 u) end;
    match goal with |- context [end_of [a; b; c] 2 ?u] => set (k := end_of [a; b; c] 2 u) end;
    assert (Hi : i < a) by (subst i; cbn; lia); assert (Hj : j < b) by (subst j; cbn; lia); assert (Hk : k < c) by (subst k; cbn; lia);
    first [ eapply lists_ext; [|replace (i + a * (j + b * (k + c * 0))) with (i + a * j) by (subst k; cbn -[Nat.mul Nat.add Nat.sub]; ring); apply (edge_w a b c i j); auto]
          | eapply lists_ext; [|replace (i + a * (j + b * (k + c * 0))) with (i + a * (b * k)) by (subst j; cbn -[Nat.mul Nat.add Nat.sub]; ring); apply (edge_v a b c i k); auto]
          | eapply lists_ext; [|replace (i + a * (j + b * (k + c * 0))) with (a * (j + b * k)) by (subst i; cbn -[Nat.mul Nat.add Nat.sub]; ring); apply (edge_u a b c j k); auto] ];
    intros t _; rewrite on_entity_dec; split;
     [ intros (F & G) d Hd up; cbn in Hd; destruct d as [|[|[|d]]]; try lia; cbn; destruct up; cbn; intros X; try discriminate X; auto
     | intros F; split; [first [apply (F 0 ltac:(cbn; lia)); reflexivity | apply (F 1 ltac:(cbn; lia)); reflexivity] | first [ apply (F 1 ltac:(cbn; lia)); reflexivity | apply (F 2 ltac:(cbn; lia)); reflexivity ] ] ]
   |]); lia.
Qed.
Lemma get_edge_lex n e : pos_dims n -> length n = 3 -> e < 12 -> exists l, get_edge n e true = Ret l /\ lists_exactly n (on_entity n (nth e lex_edges [])) l.
Proof.
  intros P H He. destruct n as [|a [|b [|c [|? ?]]]]; try discriminate H. unfold pos_dims in P. repeat match goal with X : Forall _ (_ :: _) |- _ => inversion X; clear X; subst end.
  unfold get_edge. cbn [length Nat.leb andb assert_ bind Nat.ltb]. apply lex_edge_ok; auto.
Qed.
(** The numbering of DOLFINx: right except for the edges 4 and 6. *)
Lemma edge_dlf n e : pos_dims n -> length n = 3 -> e < 12 -> e <> 4 -> e <> 6 ->
  exists l, get_edge n e false = Ret l /\ lists_exactly n (on_entity n (nth e (basix_edges 3) [])) l.
Proof.
  intros P H He N4 N6. assert (T : exists e', (t <- lexicg_to_DOLFINx_edges 3 ;; pat t e) = Ret e' /\ e' < 12 /\ nth e' lex_edges [] = nth e (basix_edges 3) []).
  { do 12 (destruct e as [|e]; [first [exfalso; lia | eexists; split; [reflexivity|]; split; [lia|reflexivity]]|]). lia. }
  destruct T as (e' & E & L & Q). destruct (get_edge_lex n e' P H L) as (l & G & X). exists l. split; [|rewrite <- Q; auto].
  revert G. unfold get_edge. rewrite H. cbn [Nat.leb andb assert_ Nat.ltb]. rewrite E. cbn [bind]. auto.
Qed.
Lemma edge_swap n : length n = 3 -> get_edge n 4 false = get_edge n 2 true /\ get_edge n 6 false = get_edge n 1 true.
Proof. intros H. unfold get_edge. rewrite H. split; reflexivity. Qed.

(** ** Flat and tensor indices *)
Lemma dot_accum a n t : length n = length t -> dot (accum_from a n) t = a * flat n t.
Proof.
  revert a t. induction n as [|x n IH]; intros a [|i t]; cbn [length]; intros H; try discriminate H; [cbn; lia|]. injection H as H.
  destruct n as [|y n]; [destruct t; [|discriminate H]; cbn; lia|].
  change (accum_from a (x :: y :: n)) with (a :: accum_from (a * x) (y :: n)). unfold dot. cbn [combine map fold_right fst snd]. fold (dot (accum_from (a * x) (y :: n)) t). rewrite IH by auto. cbn [flat]. ring.
Qed.
Lemma accum_len a n : length (accum_from a n) = length n.
Proof. revert a. induction n as [|x [|y n] IH]; intros a; auto. change (accum_from a (x :: y :: n)) with (a :: accum_from (a * x) (y :: n)). cbn [length]. rewrite IH. auto. Qed.
Lemma accum_nth a n d : d < length n -> nth d (accum_from a n) 1 = a * nprod (firstn d n).
Proof.
  revert a d. induction n as [|x n IH]; intros a d; cbn [length]; intros H; [lia|]. destruct n as [|y n]; [destruct d; [cbn; lia|cbn in H; lia]|].
  change (accum_from a (x :: y :: n)) with (a :: accum_from (a * x) (y :: n)). destruct d as [|d]; [cbn; lia|]. cbn [nth firstn]. rewrite IH by lia. unfold nprod. cbn [fold_right]. ring.
Qed.
Lemma flat_lt n t : index n t -> flat n t < nprod n.
Proof. induction 1 as [|i k t n L T IH]; [cbn; lia|]. unfold nprod. cbn [flat fold_right]. fold (nprod n). nia. Qed.
Lemma get_flat_ok n t : length n = length t -> get_flat_index n t = Ret (flat n t).
Proof. intros H. unfold get_flat_index. rewrite H, Nat.eqb_refl. cbn [assert_]. unfold dims_accumulation. rewrite dot_accum by auto. f_equal. lia. Qed.
Lemma flat_exists n k : Forall (fun x => 1 <= x) n -> k < nprod n -> exists t, index n t /\ flat n t = k.
Proof.
  revert k. induction n as [|x n IH]; intros k P H; [exists []; split; [constructor|cbn in *; lia]|]. inversion P as [|? ? P1 P2]; subst. unfold nprod in H. cbn [fold_right] in H. fold (nprod n) in H.
  destruct (digits2 x (nprod n) k P1 H) as (i & q & Hi & Hq & ->). destruct (IH q P2 Hq) as (t & It & <-). exists (i :: t). split; [constructor; auto|reflexivity].
Qed.
Lemma flat_inj n t u : index n t -> index n u -> flat n t = flat n u -> t = u.
Proof.
  intros H. revert u. induction H as [|i k t n L T IH]; intros u U E; inversion U as [|j k' u' n' L' T']; subst; auto. cbn [flat] in E.
  assert (flat n t = flat n u' /\ i = j) as (E1 & ->). { assert (flat n t = flat n u') by (destruct (Nat.lt_trichotomy (flat n t) (flat n u')) as [X|[X|X]]; auto; exfalso; nia). split; auto. rewrite H in E. lia. }
  f_equal. auto.
Qed.
(** The part of the tensor index from direction d on, zero below. *)
Definition tail_of (d : nat) (t : list nat) : list nat := repeat 0 d ++ skipn d t.
Lemma tail_len d t : d <= length t -> length (tail_of d t) = length t.
Proof. intros H. unfold tail_of. rewrite app_length, repeat_length, skipn_length. lia. Qed.
Lemma flat_split n t d : length n = length t -> d <= length t -> flat n t = flat (firstn d n) (firstn d t) + flat n (tail_of d t).
Proof.
  revert n t. induction d as [|d IH]; intros n t H L; [destruct n, t; cbn; auto|]. destruct n as [|x n], t as [|i t]; cbn [length] in H, L; try lia; try discriminate H.
  injection H as H. unfold tail_of. cbn [repeat skipn firstn app flat]. fold (tail_of d t). rewrite (IH n t H) by lia. ring.
Qed.
Lemma index_firstn n t d : index n t -> index (firstn d n) (firstn d t).
Proof. intros H. revert d. induction H; intros [|d]; cbn; constructor; auto. apply IHForall2. Qed.
Lemma tail_step d t : d < length t -> set_nth (tail_of (S d) t) d (nth d t 0) = tail_of d t.
Proof.
  intros H. unfold set_nth, tail_of. assert (E : repeat 0 (S d) ++ skipn (S d) t = repeat 0 d ++ 0 :: skipn (S d) t) by (rewrite (repeat_cons d 0) at 1; rewrite <- app_assoc; auto).
  rewrite E. rewrite firstn_app, repeat_length, Nat.sub_diag, firstn_all2 by (rewrite repeat_length; auto). cbn [firstn]. rewrite app_nil_r. f_equal.
  rewrite skipn_app, repeat_length, skipn_all2 by (rewrite repeat_length; auto). replace (S d - d) with 1 by lia. cbn [skipn app]. clear E. revert t H. induction d as [|d IH]; intros [|i t] H; cbn in *; try lia; auto. apply IH. lia.
Qed.
Lemma tail_cons d i t : tail_of (S d) (i :: t) = 0 :: tail_of d t.
Proof. reflexivity. Qed.
Lemma flat_tail_S n t d : length n = length t -> d < length t -> flat n (tail_of d t) = nprod (firstn d n) * nth d t 0 + flat n (tail_of (S d) t).
Proof.
  revert n t. induction d as [|d IH]; intros n t H L; destruct n as [|x n], t as [|i t]; cbn [length] in H, L; try lia; try discriminate H.
  - cbn. lia.
  - injection H as H. rewrite !tail_cons. cbn [flat nth firstn]. rewrite (IH n t H) by lia. unfold nprod. cbn [fold_right]. ring.
Qed.
Lemma dot_comm a b : dot a b = dot b a.
Proof. unfold dot. revert b. induction a as [|x a IH]; intros [|y b]; cbn; auto. rewrite IH. lia. Qed.
Lemma tensor_loop_ok n t : index n t -> forall d, d <= length t -> tensor_loop (dims_accumulation n) (flat n t) (rev (seq 0 d)) (tail_of d t) = t.
Proof.
  intros H. assert (L : length n = length t) by (symmetry; clear - H; induction H; cbn; auto). induction d as [|d IH]; intros Hd; [destruct t; reflexivity|].
  rewrite seq_S, rev_app_distr. cbn [rev app plus tensor_loop]. rewrite dot_comm. unfold dims_accumulation. rewrite dot_accum by (rewrite tail_len; auto). rewrite accum_nth by lia. rewrite !Nat.mul_1_l.
  rewrite (flat_split n t (S d)) by lia. replace (flat (firstn (S d) n) (firstn (S d) t) + flat n (tail_of (S d) t) - flat n (tail_of (S d) t)) with (flat (firstn (S d) n) (firstn (S d) t)) by lia.
  assert (Q : flat (firstn (S d) n) (firstn (S d) t) / nprod (firstn d n) = nth d t 0).
  { assert (E1 := flat_split n t (S d) L ltac:(lia)). assert (E2 := flat_split n t d L ltac:(lia)). rewrite (flat_tail_S n t d L) in E2 by lia.
    assert (E3 : flat (firstn (S d) n) (firstn (S d) t) = nth d t 0 * nprod (firstn d n) + flat (firstn d n) (firstn d t)) by lia. rewrite E3.
    pose proof (flat_lt _ _ (index_firstn n t d H)) as X. rewrite Nat.div_add_l by lia. rewrite (Nat.div_small _ _ X). lia. }
  rewrite Q, tail_step by lia. rewrite <- (flat_split n t (S d)) by lia. apply IH. lia.
Qed.
Lemma get_tensor_ok n t : index n t -> get_tensor_index n (flat n t) = t.
Proof.
  intros H. assert (L : length n = length t) by (symmetry; clear - H; induction H; cbn; auto). unfold get_tensor_index. unfold dims_accumulation at 2 3. rewrite accum_len, L.
  replace (repeat 0 (length t)) with (tail_of (length t) t) by (unfold tail_of; rewrite skipn_all, app_nil_r; auto). apply tensor_loop_ok; auto.
Qed.
