From Verif Require Import M_Base M_TensorIndex S_TensorIndex.
From Coq Require Import Sorting.Sorted ZifyBool.
Open Scope Z_scope.

Lemma Forall2_len {A B} (R : A -> B -> Prop) l l' : Forall2 R l l' -> length l = length l'.
Proof. induction 1; simpl; lia. Qed.

Lemma size_prod_cells size : size_prod size = cells size.
Proof. induction size as [|s size IH]; simpl; [reflexivity|]. now rewrite IH. Qed.

Lemma cells_pos size : Forall (fun s => 0 < s) size -> 0 < cells size.
Proof. induction 1 as [|s size Hs _ IH]; simpl; nia. Qed.

Lemma cells_app a b : cells (a ++ b) = cells a * cells b.
Proof. unfold cells. induction a as [|x a IH]; simpl; [destruct (fold_right Z.mul 1 b); reflexivity|]. rewrite IH. ring. Qed.

Lemma valid_index_pos size t : valid_index size t -> Forall (fun s => 0 < s) size.
Proof. induction 1; constructor; auto; lia. Qed.

Lemma valid_index_length size t : valid_index size t -> length t = length size.
Proof. intros H. symmetry. eapply Forall2_len; eauto. Qed.

Lemma lex_bounds size t : valid_index size t -> 0 <= lex size t < cells size.
Proof.
  induction 1 as [|s i size t Hi H IH]; simpl; [lia|].
  fold (cells size). nia.
Qed.

Lemma lex_app size t size2 t2 : length t = length size ->
  lex (size ++ size2) (t ++ t2) = lex size t + cells size * lex size2 t2.
Proof.
  revert t. induction size as [|s size IH]; intros [|i t]; simpl; intros Hl; try discriminate.
  - destruct (lex size2 t2); reflexivity.
  - rewrite IH by lia. fold (cells size). ring.
Qed.

Lemma digits_inj s i a j b : 0 <= i < s -> 0 <= j < s -> i + s * a = j + s * b -> i = j /\ a = b.
Proof.
  intros Hi Hj E. assert (a = b) as ->; [|split; [lia|reflexivity]].
  destruct (Z.lt_trichotomy a b) as [C|[C|C]]; auto; exfalso; nia.
Qed.

Lemma lex_inj size t u : valid_index size t -> valid_index size u -> lex size t = lex size u -> t = u.
Proof.
  intros H; revert u; induction H as [|s i size t Hi H IH]; intros u Hu E; inversion Hu; subst; [reflexivity|].
  simpl in E.
  match goal with H : valid_index size ?l' |- _ => rename l' into u' | H : Forall2 _ size ?l' |- _ => rename l' into u' end.
  destruct (digits_inj s i (lex size t) y (lex size u')) as [E2 E1]; auto.
  subst. f_equal. apply IH; auto.
Qed.

(** ** C01 *)

Lemma prod_int_acc_ok size : forall acc, 1 <= acc -> Forall (fun s => 0 < s) size ->
  acc * cells size <= INT_MAX -> prod_int_acc acc size = Ret (acc * cells size).
Proof.
  induction size as [|s size IH]; simpl; intros acc Ha Hp Hb.
  - f_equal. ring.
  - inversion Hp as [|? ? Hs Hp']; subst. fold (cells size) in *.
    pose proof (cells_pos _ Hp').
    unfold i32. assert (1 <= acc * s) by nia. assert (acc * s <= INT_MAX) by nia.
    replace ((INT_MIN <=? acc * s) && (acc * s <=? INT_MAX)) with true.
    2:{ symmetry. unfold INT_MIN. lia. }
    simpl. rewrite IH; auto; [f_equal; ring | nia].
Qed.

Lemma prod_int_ok size : Forall (fun s => 0 < s) size -> cells size <= INT_MAX -> prod_int size = Ret (cells size).
Proof.
  intros Hp Hb. unfold prod_int. rewrite prod_int_acc_ok; auto; try lia. f_equal; lia.
Qed.

Lemma valid_index_app size t size2 t2 : valid_index size t -> valid_index size2 t2 ->
  valid_index (size ++ size2) (t ++ t2).
Proof. apply Forall2_app. Qed.

Lemma unflat_loop_ok size : forall f, Forall (fun s => 0 < s) size -> cells size <= INT_MAX ->
  0 <= f < cells size ->
  exists t, unflat_loop (rev size) (cells size) f = Ret (rev t) /\ valid_index size t /\ lex size t = f.
Proof.
  induction size as [|s size IH] using rev_ind; intros f Hp Hb Hf.
  - exists []. simpl in *. repeat split; try constructor. unfold cells in Hf; simpl in Hf. lia.
  - rewrite Forall_app in Hp. destruct Hp as [Hp Hs]. inversion Hs as [|? ? Hs' _]; subst.
    pose proof (cells_pos _ Hp) as Hc.
    rewrite rev_app_distr. simpl rev. cbn [app unflat_loop].
    rewrite cells_app in *.
    assert (cells [s] = s) as Es by (unfold cells; simpl; lia). rewrite Es in *.
    destruct (s =? 0) eqn:E; [lia|].
    rewrite Z.div_mul by lia.
    destruct (cells size =? 0) eqn:E2; [lia|].
    set (ind := f / cells size).
    assert (0 <= ind < s) as Hind.
    { unfold ind. split; [apply Z.div_pos; lia|]. apply Z.div_lt_upper_bound; nia. }
    assert (ind <? INT_MAX = true) as Hm by nia.
    unfold assert_. rewrite Hm.
    destruct (IH (f - ind * cells size)) as (t & Ht & Hv & Hl); auto; [nia| |].
    { pose proof (Z.mod_pos_bound f (cells size) Hc) as Hm2. rewrite Z.mod_eq in Hm2 by lia.
      fold ind in Hm2. rewrite (Z.mul_comm ind). exact Hm2. }
    rewrite Ht. exists (t ++ [ind]). rewrite rev_app_distr. repeat split.
    + apply valid_index_app; auto. constructor; [lia|constructor].
    + rewrite lex_app by (eapply valid_index_length; eauto). simpl. lia.
Qed.

Lemma to_tensor_ok size f : Forall (fun s => 0 < s) size -> cells size <= INT_MAX -> 0 <= f < cells size ->
  exists t, to_tensor f size = Ret t /\ valid_index size t /\ lex size t = f.
Proof.
  intros Hp Hb Hf. unfold to_tensor. rewrite prod_int_ok by auto. cbn [bind].
  replace ((0 <=? f) && (f <? cells size)) with true by lia. unfold assert_.
  destruct (unflat_loop_ok size f) as (t & Ht & Hv & Hl); auto. rewrite Ht. cbn [bind].
  exists t. now rewrite rev_involutive.
Qed.

Lemma flat_loop_ok size t : valid_index size t -> forall accum flat, 1 <= accum -> 0 <= flat < accum ->
  accum * cells size <= INT64_MAX ->
  flat_loop t size accum flat = Ret (flat + accum * lex size t).
Proof.
  induction 1 as [|s i size t Hi H IH]; intros accum flat Ha Hf Hb.
  - simpl. f_equal. lia.
  - cbn [flat_loop]. unfold assert_. replace ((0 <=? i) && (i <? s)) with true by lia.
    cbn [cells fold_right lex] in *. fold (cells size) in *.
    pose proof (cells_pos _ (valid_index_pos _ _ H)) as Hc.
    assert (accum * s <= INT64_MAX) by (apply Z.le_trans with (accum * (s * cells size)); [|exact Hb]; apply Z.mul_le_mono_nonneg_l; nia).
    assert (0 <= i * accum) by nia. assert (i * accum + accum <= accum * s) by nia.
    unfold i64 at 1. replace ((INT64_MIN <=? i * accum) && (i * accum <=? INT64_MAX)) with true
      by (symmetry; unfold INT64_MIN; lia).
    cbn [bind]. unfold i64 at 1.
    replace ((INT64_MIN <=? flat + i * accum) && (flat + i * accum <=? INT64_MAX)) with true
      by (symmetry; unfold INT64_MIN; lia).
    cbn [bind]. unfold i64 at 1.
    replace ((INT64_MIN <=? accum * s) && (accum * s <=? INT64_MAX)) with true
      by (symmetry; unfold INT64_MIN; lia).
    cbn [bind]. rewrite IH by nia. f_equal; ring.
Qed.

Lemma to_flat_ok size t : valid_index size t -> cells size <= INT64_MAX -> to_flat t size = Ret (lex size t).
Proof.
  intros H Hb. unfold to_flat. rewrite flat_loop_ok; auto; try lia. f_equal; lia.
Qed.

Lemma int_max_64 : INT_MAX < INT64_MAX.
Proof. unfold INT_MAX, INT64_MAX. lia. Qed.

Lemma to_tensor_lex size t : valid_index size t -> cells size <= INT_MAX -> to_tensor (lex size t) size = Ret t.
Proof.
  intros H Hb. destruct (to_tensor_ok size (lex size t)) as (u & Hu & Hv & Hl); auto.
  - eapply valid_index_pos; eauto.
  - apply lex_bounds; auto.
  - rewrite Hu. f_equal. eapply lex_inj; eauto.
Qed.

(** ** Ranges *)

Definition wf_range (r : range) : Prop := Forall2 Z.le (lower r) (upper r).
Definition nonempty_dirs (r : range) : Prop := Forall2 Z.lt (lower r) (upper r).

Definition box (lo hi t : list Z) : Prop := Forall2 (fun l x => fst l <= x < snd l) (combine lo hi) t /\ length lo = length hi.

Lemma in_box_nil : in_box [] [] [].
Proof. repeat split; auto; simpl in *; lia. Qed.

Lemma in_box_cons l h i lo hi t :
  in_box (l :: lo) (h :: hi) (i :: t) <-> (l <= i < h /\ in_box lo hi t).
Proof.
  unfold in_box; simpl; split.
  - intros (H1 & H2 & H3). split; [apply (H3 O); lia|]. repeat split; try lia; intros; apply (H3 (S d)); lia.
  - intros (H0 & H1 & H2 & H3). split; [lia|split; [lia|]].
    intros [|d] Hd; [lia|]. apply H3. lia.
Qed.

Lemma in_box_inv lo hi t : in_box lo hi t ->
  (lo = [] /\ hi = [] /\ t = []) \/
  (exists l lo' h hi' i t', lo = l :: lo' /\ hi = h :: hi' /\ t = i :: t' /\ l <= i < h /\ in_box lo' hi' t').
Proof.
  intros H. destruct lo as [|l lo], hi as [|h hi], t as [|i t];
    try (destruct H as (H1 & H2 & _); simpl in *; lia).
  - left; auto.
  - right. apply in_box_cons in H. exists l, lo, h, hi, i, t. tauto.
Qed.

Lemma in_box_length lo hi t : in_box lo hi t -> length lo = length t /\ length hi = length t.
Proof. intros (H1 & H2 & _). auto. Qed.

Definition rank (lo hi t : list Z) : Z := lex (vsub hi lo) (vsub t lo).

Lemma rank_valid lo : forall hi t, in_box lo hi t -> valid_index (vsub hi lo) (vsub t lo).
Proof.
  induction lo as [|l lo IH]; intros hi t H; apply in_box_inv in H as [(E1 & E2 & E3)|(l' & lo' & h & hi' & i & t' & E1 & E2 & E3 & Hi & H)];
    subst; try discriminate.
  - constructor.
  - injection E1 as -> ->. simpl. constructor; [lia|]. apply IH; auto.
Qed.

Lemma vsub_inj lo : forall t u, length t = length lo -> length u = length lo -> vsub t lo = vsub u lo -> t = u.
Proof.
  induction lo as [|l lo IH]; intros [|x t] [|y u]; simpl; intros; try discriminate; auto.
  injection H1 as E1 E2. f_equal; [lia|]. apply IH; auto; lia.
Qed.

Lemma rank_inj lo hi t u : in_box lo hi t -> in_box lo hi u -> rank lo hi t = rank lo hi u -> t = u.
Proof.
  intros Ht Hu E. apply (vsub_inj lo).
  - symmetry; apply (in_box_length _ _ _ Ht).
  - symmetry; apply (in_box_length _ _ _ Hu).
  - eapply lex_inj; try apply rank_valid; eauto.
Qed.

Lemma odometer_rank lo : forall hi t, in_box lo hi t ->
  match odometer t lo hi with
  | Some t' => in_box lo hi t' /\ rank lo hi t' = rank lo hi t + 1
  | None => rank lo hi t = size_prod (vsub hi lo) - 1
  end.
Proof.
  induction lo as [|l lo IH]; intros hi t H; apply in_box_inv in H as [(E1 & E2 & E3)|(l' & lo' & h & hi' & i & t' & E1 & E2 & E3 & Hi & H)];
    subst; try discriminate.
  - simpl. reflexivity.
  - injection E1 as -> ->. cbn [odometer]. destruct (i + 1 <? h) eqn:E.
    + split; [apply in_box_cons; split; [lia|auto]|]. unfold rank. simpl. lia.
    + specialize (IH _ _ H). destruct (odometer t' lo' hi') as [r|].
      * destruct IH as [IH1 IH2]. split; [apply in_box_cons; split; [lia|auto]|].
        unfold rank in *. cbn [vsub lex]. rewrite IH2. nia.
      * unfold rank in *. cbn [vsub lex size_prod]. rewrite IH. nia.
Qed.

Lemma rank_bounds lo hi t : in_box lo hi t -> 0 <= rank lo hi t < size_prod (vsub hi lo).
Proof. intros H. rewrite size_prod_cells. apply lex_bounds. apply rank_valid; auto. Qed.

Lemma tid_eqb_eq a : forall b, tid_eqb a b = true <-> a = b.
Proof.
  induction a as [|x a IH]; intros [|y b]; simpl; split; intros H; try discriminate; auto.
  - apply andb_true_iff in H as [H1 H2]. apply IH in H2. subst. f_equal. lia.
  - injection H as -> ->. apply andb_true_iff; split; [lia|]. now apply IH.
Qed.

Lemma in_box_not_upper lo hi t : lo <> [] -> in_box lo hi t -> tid_eqb t hi = false.
Proof.
  intros Hne H. destruct (tid_eqb t hi) eqn:E; auto. apply tid_eqb_eq in E. subst.
  apply in_box_inv in H as [(E1 & _)|(l' & lo' & h & hi' & i & t' & E1 & E2 & E3 & Hi & _)]; [contradiction|].
  subst. injection E3 as -> ->. lia.
Qed.

Lemma iterate_end fuel r : iterate_from fuel r (upper r) = Ret [].
Proof. destruct fuel; simpl; replace (tid_eqb (upper r) (upper r)) with true by (symmetry; now apply tid_eqb_eq); auto. Qed.

(** Iteration from an index in the box: the ranks visited are consecutive. *)
Lemma iterate_from_ok r : lower r <> [] -> forall n fuel t,
  in_box (lower r) (upper r) t -> rank (lower r) (upper r) t + Z.of_nat n = range_size r ->
  (n <= fuel)%nat ->
  exists l, iterate_from fuel r t = Ret l /\ length l = n /\ Forall (in_box (lower r) (upper r)) l /\
    forall k, (k < n)%nat -> rank (lower r) (upper r) (nth k l []) = rank (lower r) (upper r) t + Z.of_nat k.
Proof.
  intros Hne. induction n as [|n IH]; intros fuel t Hb Hr Hf.
  - pose proof (rank_bounds _ _ _ Hb). unfold range_size, range_sizes in Hr. lia.
  - destruct fuel as [|fuel]; [lia|]. cbn [iterate_from].
    rewrite (in_box_not_upper _ _ _ Hne Hb). cbn [iterate_from].
    pose proof (odometer_rank _ _ _ Hb) as Ho. unfold iter_next.
    destruct (odometer t (lower r) (upper r)) as [t'|] eqn:E.
    + destruct Ho as [Hb' Hr']. destruct (IH fuel t') as (l & Hl & Hlen & HF & Hk); auto; [lia|lia|].
      rewrite Hl. cbn [bind]. exists (t :: l). split; [auto|]. split; [simpl; lia|]. split; [constructor; auto|].
      intros [|k] Hlt; simpl; [lia|]. rewrite Hk by lia. lia.
    + rewrite iterate_end. cbn [bind]. exists [t]. unfold range_size, range_sizes in Hr.
      assert (n = O) by lia. subst. split; [auto|]. split; [auto|]. split; [constructor; auto|].
      intros [|k] Hlt; [simpl; lia|lia].
Qed.

Lemma in_box_lower r : nonempty_dirs r -> in_box (lower r) (upper r) (lower r).
Proof.
  unfold nonempty_dirs. destruct r as [lo hi]; simpl. induction 1 as [|l h lo hi Hl H IH]; [apply in_box_nil|].
  apply in_box_cons. split; [lia|auto].
Qed.

Lemma vsub_self l : forall s, lex s (vsub l l) = 0.
Proof. induction l as [|x l IH]; intros [|y s]; simpl; auto. rewrite IH. lia. Qed.

Lemma range_size_pos r : nonempty_dirs r -> 0 < range_size r.
Proof.
  unfold nonempty_dirs, range_size, range_sizes. destruct r as [lo hi]; simpl.
  induction 1 as [|l h lo hi Hl H IH]; cbn [vsub size_prod]; nia.
Qed.

Lemma rank_lex_lt lo : forall hi a b, in_box lo hi a -> in_box lo hi b -> rank lo hi a < rank lo hi b -> lex_lt a b.
Proof.
  induction lo as [|l lo IH]; intros hi a b Ha Hb Hlt.
  - apply in_box_inv in Ha as [(E1 & E2 & E3)|(l' & lo' & h & hi' & i & t' & E1 & _)]; try discriminate.
    unfold rank in Hlt; subst; simpl in Hlt. destruct b; simpl in Hlt; lia.
  - apply in_box_inv in Ha as [(E1 & _)|(l' & lo' & h & hi' & i & t' & E1 & E2 & E3 & Hi & H)]; try discriminate.
    injection E1 as -> ->. subst.
    apply in_box_inv in Hb as [(E1 & _)|(l2 & lo2 & h2 & hi2 & j & u & E1 & E2 & E3 & Hj & H2)]; try discriminate.
    injection E1 as -> ->. injection E2 as -> ->. subst.
    unfold rank in Hlt. cbn [vsub lex] in Hlt. fold (rank lo2 hi2 t') in Hlt. fold (rank lo2 hi2 u) in Hlt.
    destruct (in_box_length _ _ _ H) as [HL1 _]. destruct (in_box_length _ _ _ H2) as [HL2 _].
    destruct (Z.lt_trichotomy (rank lo2 hi2 t') (rank lo2 hi2 u)) as [C|[C|C]].
    + destruct (IH _ _ _ H H2 C) as (d & Hd & Hlen & Hn & He). exists (S d). simpl.
      repeat split; try lia; auto. intros [|e] Hle; [lia|]. apply He. lia.
    + apply rank_inj in C; auto. subst u. exists O. simpl. repeat split; try lia.
      intros [|e] He; [lia|auto].
    + exfalso. nia.
Qed.

Lemma sorted_nth {A} (R : A -> A -> Prop) (d : A) l :
  (forall i j, (i < j < length l)%nat -> R (nth i l d) (nth j l d)) -> StronglySorted R l.
Proof.
  induction l as [|x l IH]; intros H; constructor.
  - apply IH. intros i j Hij. apply (H (S i) (S j)). simpl; lia.
  - apply Forall_forall. intros y Hy. apply (In_nth _ _ d) in Hy as (k & Hk & <-).
    apply (H O (S k)). simpl; lia.
Qed.

Lemma lex_lt_irrefl a : ~ lex_lt a a.
Proof. intros (d & _ & _ & H & _). lia. Qed.

Lemma iterate_ok r : lower r <> [] -> nonempty_dirs r -> forall fuel, (Z.to_nat (range_size r) <= fuel)%nat ->
  exists l, iterate fuel r = Ret l /\
    (forall t, In t l <-> in_box (lower r) (upper r) t) /\
    StronglySorted lex_lt l /\ Z.of_nat (length l) = range_size r /\
    (forall k, (k < length l)%nat -> rank (lower r) (upper r) (nth k l []) = Z.of_nat k).
Proof.
  intros Hne Hr fuel Hf. pose proof (range_size_pos _ Hr) as Hp.
  pose proof (in_box_lower _ Hr) as Hb.
  assert (rank (lower r) (upper r) (lower r) = 0) as H0 by apply vsub_self.
  destruct (iterate_from_ok r Hne (Z.to_nat (range_size r)) fuel (lower r)) as (l & Hl & Hlen & HF & Hk); auto; [lia|].
  exists l. split; [exact Hl|]. rewrite Forall_forall in HF.
  split; [|split; [|split; [lia|]]].
  - intros t. split; [apply HF|]. intros Ht.
    pose proof (rank_bounds _ _ _ Ht) as HB. fold (range_sizes r) in HB. fold (range_size r) in HB.
    set (k := Z.to_nat (rank (lower r) (upper r) t)).
    assert (k < length l)%nat by (unfold k; lia).
    assert (nth k l [] = t) as Ek.
    { apply (rank_inj (lower r) (upper r)); auto.
      - apply HF, nth_In; auto.
      - rewrite Hk by lia. unfold k. lia. }
    rewrite <- Ek. apply nth_In; auto.
  - apply (sorted_nth _ []). intros i j Hij.
    apply (rank_lex_lt (lower r) (upper r)); try (apply HF, nth_In; lia).
    rewrite !Hk by lia. lia.
  - intros k Hlt. rewrite Hk by lia. lia.
Qed.

(** ** split *)
Lemma argmax_from_spec l : forall best besti i full,
  (forall k, nth (i + k) full 0 = nth k l 0) -> (length full = i + length l)%nat ->
  (besti < i)%nat -> nth besti full 0 = best -> (forall k, (k < i)%nat -> nth k full 0 <= best) ->
  let m := argmax_from best besti i l in (m < length full)%nat /\ forall k, (k < length full)%nat -> nth k full 0 <= nth m full 0.
Proof.
  induction l as [|x l IH]; intros best besti i full Hn Hlen Hi Hb Hm; cbn [argmax_from length] in *.
  - split; [lia|]. intros k Hk. rewrite Hb. apply Hm. lia.
  - assert (nth i full 0 = x) as Hx by (specialize (Hn O); rewrite Nat.add_0_r in Hn; exact Hn).
    destruct (best <? x) eqn:E; (apply IH; [ | lia | lia | auto | ]).
    1,3: intros k; specialize (Hn (S k)); simpl in Hn; replace (S i + k)%nat with (i + S k)%nat by lia; exact Hn.
    + intros k Hk. destruct (Nat.eq_dec k i); [subst k; rewrite Hx; lia|]. specialize (Hm k). lia.
    + intros k Hk. destruct (Nat.eq_dec k i); [subst k; lia|]. apply Hm. lia.
Qed.

Lemma argmax_spec l : l <> [] -> (argmax l < length l)%nat /\ forall k, (k < length l)%nat -> nth k l 0 <= nth (argmax l) l 0.
Proof.
  destruct l as [|x l]; [congruence|]. intros _. unfold argmax.
  apply (argmax_from_spec l x O 1%nat (x :: l)); auto; try lia.
  intros k Hk. replace k with O by lia. simpl. lia.
Qed.

Lemma set_nth_length {A} n (v : A) l : length (set_nth n v l) = length l.
Proof. revert n; induction l as [|x l IH]; intros [|n]; simpl; auto. Qed.

Lemma set_nth_nth {A} n (v : A) l k d : (n < length l)%nat -> nth k (set_nth n v l) d = if Nat.eqb k n then v else nth k l d.
Proof.
  revert n k; induction l as [|x l IH]; intros [|n] [|k]; simpl; intros; try lia; auto.
  apply IH. lia.
Qed.

Lemma vsub_nth hi : forall lo d, length lo = length hi -> (d < length hi)%nat -> nth d (vsub hi lo) 0 = nth d hi 0 - nth d lo 0.
Proof.
  induction hi as [|h hi IH]; intros [|l lo] [|d]; simpl; intros; try lia. apply IH; lia.
Qed.
Lemma vsub_length hi : forall lo, length lo = length hi -> length (vsub hi lo) = length hi.
Proof. induction hi as [|h hi IH]; intros [|l lo]; simpl; intros; try lia. rewrite IH; lia. Qed.

Lemma vsub_set_nth_hi hi : forall lo d v, length lo = length hi -> (d < length hi)%nat ->
  vsub (set_nth d v hi) lo = set_nth d (v - nth d lo 0) (vsub hi lo).
Proof. induction hi as [|h hi IH]; intros [|l lo] [|d] v; simpl; intros; try lia; auto. f_equal. apply IH; lia. Qed.
Lemma vsub_set_nth_lo hi : forall lo d v, length lo = length hi -> (d < length hi)%nat ->
  vsub hi (set_nth d v lo) = set_nth d (nth d hi 0 - v) (vsub hi lo).
Proof. induction hi as [|h hi IH]; intros [|l lo] [|d] v; simpl; intros; try lia; auto. f_equal. apply IH; lia. Qed.

Lemma size_prod_set_nth l : forall d a b, (d < length l)%nat ->
  size_prod (set_nth d (a + b) l) = size_prod (set_nth d a l) + size_prod (set_nth d b l).
Proof. induction l as [|x l IH]; intros [|d] a b; simpl; intros; try lia. rewrite IH by lia. lia. Qed.
Lemma set_nth_same l : forall d, (d < length l)%nat -> set_nth d (nth d l 0) l = l.
Proof. induction l as [|x l IH]; intros [|d]; simpl; intros; try lia; auto. f_equal. apply IH; lia. Qed.
Lemma size_prod_set_nth_pos l : forall d a, Forall (fun s => 0 < s) l -> 0 < a -> 0 < size_prod (set_nth d a l).
Proof.
  induction l as [|x l IH]; intros [|d] a H Ha; inversion H; subst; cbn [set_nth size_prod]; try lia.
  - rewrite size_prod_cells. pose proof (cells_pos l H3). nia.
  - specialize (IH d a H3 Ha). nia.
Qed.
Lemma size_prod_all_le1 l : Forall (fun s => 0 < s) l -> (forall k, (k < length l)%nat -> nth k l 0 <= 1) -> size_prod l = 1.
Proof.
  induction 1 as [|x l Hx H IH]; intros Hk; simpl; auto. rewrite IH.
  - specialize (Hk O). simpl in Hk. lia.
  - intros k Hlt. apply (Hk (S k)). simpl; lia.
Qed.

Lemma nonempty_length r : nonempty_dirs r -> length (lower r) = length (upper r).
Proof. apply Forall2_len. Qed.

Lemma nonempty_nth r d : nonempty_dirs r -> (d < length (lower r))%nat -> nth d (lower r) 0 < nth d (upper r) 0.
Proof.
  unfold nonempty_dirs. destruct r as [lo hi]; simpl. intros H; revert d. induction H as [|l h lo hi Hl H IH]; intros [|d]; simpl; intros; try lia.
  apply IH; lia.
Qed.

Lemma sizes_pos r : nonempty_dirs r -> Forall (fun s => 0 < s) (range_sizes r).
Proof.
  unfold nonempty_dirs, range_sizes. destruct r as [lo hi]; simpl. induction 1; simpl; constructor; auto; lia.
Qed.

Lemma forall2_nth lo : forall hi, length lo = length hi -> (forall d, (d < length lo)%nat -> nth d lo 0 < nth d hi 0) -> Forall2 Z.lt lo hi.
Proof.
  induction lo as [|l lo IH]; intros [|h hi] Hl H; simpl in *; try lia; constructor.
  - apply (H O); lia.
  - apply IH; [lia|]. intros d Hd. apply (H (S d)); lia.
Qed.

Lemma split_range_ok r : nonempty_dirs r -> 1 < range_size r ->
  Forall (fun x => 0 <= x) (lower r) ->
  (forall d, (d < length (lower r))%nat -> nth d (lower r) 0 + nth d (upper r) 0 <= INT_MAX) ->
  exists a b d s, split_range r = Ret (a, b) /\
    (d < length (lower r))%nat /\
    (forall k, (k < length (lower r))%nat -> nth k (range_sizes r) 0 <= nth d (range_sizes r) 0) /\
    nth d (lower r) 0 < s < nth d (upper r) 0 /\
    (s = (nth d (lower r) 0 + nth d (upper r) 0) / 2) /\
    a = mk_range (lower r) (set_nth d s (upper r)) /\ b = mk_range (set_nth d s (lower r)) (upper r).
Proof.
  intros Hr Hs Hpos Hov. pose proof (nonempty_length _ Hr) as Hlen.
  assert (lower r <> []) as Hne.
  { intros E. unfold range_size, range_sizes in Hs. rewrite E in *. destruct (upper r); simpl in *; lia. }
  assert (length (range_sizes r) = length (lower r)) as HL.
  { unfold range_sizes. rewrite vsub_length; lia. }
  assert (range_sizes r <> []) as Hnz.
  { intros E. rewrite E in HL. destruct (lower r); simpl in *; [congruence|lia]. }
  destruct (argmax_spec _ Hnz) as [Hd Hmax]. set (d := argmax (range_sizes r)) in *.
  unfold split_range. replace (1 <? range_size r) with true by lia. unfold assert_. fold d.
  assert (1 < nth d (range_sizes r) 0) as Hbig.
  { destruct (Z.le_gt_cases (nth d (range_sizes r) 0) 1) as [C|C]; [|lia].
    exfalso. assert (range_size r = 1); [|lia]. apply size_prod_all_le1; [apply sizes_pos; auto|].
    intros k Hk. specialize (Hmax k Hk). lia. }
  unfold range_sizes in Hbig. rewrite vsub_nth in Hbig by lia.
  assert (0 <= nth d (lower r) 0) as Hl0.
  { rewrite Forall_forall in Hpos. apply Hpos, nth_In. lia. }
  specialize (Hov d). unfold i32.
  replace ((INT_MIN <=? nth d (lower r) 0 + nth d (upper r) 0) && (nth d (lower r) 0 + nth d (upper r) 0 <=? INT_MAX)) with true
    by (symmetry; unfold INT_MIN; lia).
  cbn [bind]. rewrite Z.quot_div_nonneg by lia.
  eexists _, _, d, _. split; [reflexivity|]. split; [lia|].
  split; [intros; apply Hmax; lia|]. split; [|auto].
  pose proof (Z.div_mod (nth d (lower r) 0 + nth d (upper r) 0) 2). pose proof (Z.mod_pos_bound (nth d (lower r) 0 + nth d (upper r) 0) 2). lia.
Qed.

Lemma in_box_nth lo hi t : in_box lo hi t <-> length lo = length t /\ length hi = length t /\ forall d, (d < length t)%nat -> nth d lo 0 <= nth d t 0 < nth d hi 0.
Proof. reflexivity. Qed.

Lemma split_at_partition r d s : length (lower r) = length (upper r) -> (d < length (lower r))%nat ->
  nth d (lower r) 0 <= s <= nth d (upper r) 0 ->
  forall t, (in_box (lower r) (upper r) t <->
     in_box (lower r) (set_nth d s (upper r)) t \/ in_box (set_nth d s (lower r)) (upper r) t) /\
   ~ (in_box (lower r) (set_nth d s (upper r)) t /\ in_box (set_nth d s (lower r)) (upper r) t).
Proof.
  intros Hlen Hd Hs t. unfold in_box. rewrite !set_nth_length. split; [split|].
  - intros (H1 & H2 & H3). destruct (Z.lt_ge_cases (nth d t 0) s) as [C|C]; [left|right]; (split; [lia|split;[lia|]]);
      intros k Hk; specialize (H3 k Hk); rewrite set_nth_nth by lia; destruct (Nat.eqb_spec k d); subst; lia.
  - intros [(H1 & H2 & H3)|(H1 & H2 & H3)]; (split; [lia|split;[lia|]]); intros k Hk; specialize (H3 k Hk);
      rewrite set_nth_nth in H3 by lia; destruct (Nat.eqb_spec k d); subst; lia.
  - intros ((H1 & H2 & H3) & (_ & _ & H4)). assert (d < length t)%nat as Hdt by lia.
    specialize (H3 d Hdt). specialize (H4 d Hdt). rewrite set_nth_nth in H3, H4 by lia.
    rewrite Nat.eqb_refl in *. lia.
Qed.

Lemma split_nonempty r d s : nonempty_dirs r -> (d < length (lower r))%nat -> nth d (lower r) 0 < s < nth d (upper r) 0 ->
  nonempty_dirs (mk_range (lower r) (set_nth d s (upper r))) /\ nonempty_dirs (mk_range (set_nth d s (lower r)) (upper r)).
Proof.
  intros Hr Hd Hs. pose proof (nonempty_length _ Hr). split; unfold nonempty_dirs; simpl; apply forall2_nth;
    rewrite ?set_nth_length; auto; intros k Hk; rewrite set_nth_nth by lia; pose proof (nonempty_nth r k Hr);
    destruct (Nat.eqb_spec k d); subst; lia.
Qed.

Lemma split_sizes r d s : length (lower r) = length (upper r) -> (d < length (lower r))%nat ->
  range_size (mk_range (lower r) (set_nth d s (upper r))) + range_size (mk_range (set_nth d s (lower r)) (upper r)) = range_size r.
Proof.
  intros Hlen Hd. unfold range_size, range_sizes; simpl.
  rewrite vsub_set_nth_hi, vsub_set_nth_lo by lia. rewrite <- size_prod_set_nth by (rewrite vsub_length; lia).
  f_equal. rewrite <- (set_nth_same (vsub (upper r) (lower r)) d) at 2 by (rewrite vsub_length; lia).
  f_equal. rewrite vsub_nth by lia. lia.
Qed.

(** ** in_range *)
Lemma in_range_box r : forall t, length (lower r) = length t -> length (upper r) = length t ->
  (in_range r t = true <-> in_box (lower r) (upper r) t).
Proof.
  destruct r as [lo hi]; unfold in_range; simpl. revert hi.
  induction lo as [|l lo IH]; intros [|h hi] [|i t]; simpl; intros; try lia.
  - split; auto using in_box_nil.
  - rewrite in_box_cons. rewrite <- IH by lia. lia.
Qed.

Lemma in_range_flat_ok r total t : valid_index total t -> cells total <= INT_MAX ->
  length (lower r) = length total -> length (upper r) = length total ->
  in_range_flat r (lex total t) total = Ret (in_range r t).
Proof.
  intros Hv Hb H1 H2. unfold in_range_flat. pose proof (lex_bounds _ _ Hv) as HB.
  replace (0 <=? lex total t) with true by lia. unfold assert_.
  rewrite size_prod_cells. destruct (cells total <=? lex total t) eqn:E; [lia|].
  rewrite to_tensor_lex by auto. reflexivity.
Qed.

(** ** operator< *)
Lemma existsb_rev {A} (f : A -> bool) l : existsb f (rev l) = existsb f l.
Proof.
  apply eq_iff_eq_true. rewrite !existsb_exists. split; intros (x & Hx & Hf); exists x; split; auto; [now apply in_rev|now apply -> in_rev].
Qed.

Lemma tid_lt_spec a b : length a = length b ->
  (tid_lt a b = true <-> a <> [] /\ nth 0 a 0 < nth 0 b 0 /\ forall d, (0 < d < length a)%nat -> nth d a 0 <= nth d b 0).
Proof.
  destruct a as [|x a], b as [|y b]; simpl; intros Hl; try discriminate Hl.
  - split; [discriminate|intros [H _]; congruence].
  - rewrite existsb_rev. rewrite andb_true_iff, negb_true_iff.
    assert (existsb (fun p => snd p <? fst p) (combine a b) = false <-> forall d, (0 < d < S (length a))%nat -> nth d (x :: a) 0 <= nth d (y :: b) 0) as HE.
    { split.
      - intros H [|d] Hd; [lia|]. simpl.
        destruct (nth d b 0 <? nth d a 0) eqn:E; [|lia].
        exfalso. assert (existsb (fun p => snd p <? fst p) (combine a b) = true); [|congruence].
        apply existsb_exists. exists (nth d (combine a b) (0,0)). split.
        + apply nth_In. rewrite combine_length. lia.
        + rewrite combine_nth by lia. simpl. auto.
      - intros H. destruct (existsb (fun p => snd p <? fst p) (combine a b)) eqn:E; auto.
        apply existsb_exists in E as ([u v] & Hin & Huv). simpl in Huv.
        apply (In_nth _ _ (0,0)) in Hin as (k & Hk & Ek). rewrite combine_length in Hk.
        rewrite combine_nth in Ek by lia. injection Ek as <- <-.
        specialize (H (S k)). simpl in H. lia. }
    rewrite HE. split; intros H; [split; [congruence|split; [lia|apply H]]|].
    split; [apply H|]. destruct H as (_ & H & _). lia.
Qed.

(** ** Statements assembled for the property file *)

Lemma C01_lemma : forall size, Forall (fun s => 0 < s) size -> cells size <= INT_MAX ->
  (forall f, 0 <= f < cells size -> exists t, to_tensor f size = Ret t /\ valid_index size t /\ to_flat t size = Ret f) /\
  (forall t, valid_index size t ->
     to_flat t size = Ret (lex size t) /\ 0 <= lex size t < cells size /\ to_tensor (lex size t) size = Ret t).
Proof.
  intros size Hp Hb. pose proof int_max_64. split.
  - intros f Hf. destruct (to_tensor_ok size f) as (t & Ht & Hv & Hl); auto.
    exists t. split; [auto|split; [auto|]]. rewrite to_flat_ok; auto; [now rewrite Hl|lia].
  - intros t Hv. split; [apply to_flat_ok; auto; lia|]. split; [now apply lex_bounds|]. apply to_tensor_lex; auto.
Qed.

Lemma C03_lemma : forall r fuel, lower r <> [] -> Forall2 Z.lt (lower r) (upper r) ->
  (Z.to_nat (range_size r) <= fuel)%nat ->
  exists l, iterate fuel r = Ret l /\
    (forall t, In t l <-> in_box (lower r) (upper r) t) /\
    StronglySorted lex_lt l /\ Z.of_nat (length l) = range_size r.
Proof.
  intros r fuel Hne Hr Hf. destruct (iterate_ok r Hne Hr fuel Hf) as (l & H1 & H2 & H3 & H4 & _).
  exists l; auto.
Qed.

Lemma C04_lemma : forall r fuel, Forall2 Z.le (lower r) (upper r) ->
  (iterate fuel r = Ret [] <-> lower r = upper r).
Proof.
  intros r fuel Hw. unfold iterate. split.
  - intros H. destruct fuel as [|fuel]; cbn [iterate_from] in H;
      destruct (tid_eqb (lower r) (upper r)) eqn:E; try (now apply tid_eqb_eq in E); try discriminate.
    destruct (iterate_from fuel r (iter_next r (lower r))); discriminate.
  - intros ->. apply iterate_end.
Qed.

Lemma C05_lemma : forall r, Forall2 Z.lt (lower r) (upper r) -> Forall (fun x => 0 <= x) (lower r) ->
  (forall d, (d < length (lower r))%nat -> nth d (lower r) 0 + nth d (upper r) 0 <= INT_MAX) ->
  1 < range_size r ->
  exists a b, split_range r = Ret (a, b) /\
    Forall2 Z.lt (lower a) (upper a) /\ Forall2 Z.lt (lower b) (upper b) /\
    (forall t, in_box (lower r) (upper r) t <-> in_box (lower a) (upper a) t \/ in_box (lower b) (upper b) t) /\
    (forall t, ~ (in_box (lower a) (upper a) t /\ in_box (lower b) (upper b) t)) /\
    range_size a + range_size b = range_size r /\
    0 < range_size a < range_size r /\ 0 < range_size b < range_size r /\
    exists d, (d < length (lower r))%nat /\
      (forall k, (k < length (lower r))%nat -> nth k (upper r) 0 - nth k (lower r) 0 <= nth d (upper r) 0 - nth d (lower r) 0) /\
      (forall k, (k < length (lower r))%nat -> k <> d ->
          nth k (lower a) 0 = nth k (lower r) 0 /\ nth k (upper a) 0 = nth k (upper r) 0 /\
          nth k (lower b) 0 = nth k (lower r) 0 /\ nth k (upper b) 0 = nth k (upper r) 0) /\
      0 <= (nth d (upper b) 0 - nth d (lower b) 0) - (nth d (upper a) 0 - nth d (lower a) 0) <= 1.
Proof.
  intros r Hr Hpos Hov Hs.
  destruct (split_range_ok r Hr Hs Hpos Hov) as (a & b & d & s & Hsp & Hd & Hmax & Hlt & Es & -> & ->).
  pose proof (nonempty_length _ Hr) as Hlen.
  destruct (split_nonempty r d s Hr Hd Hlt) as [Ha Hb].
  pose proof (split_sizes r d s Hlen Hd) as Hsz.
  pose proof (range_size_pos _ Ha). pose proof (range_size_pos _ Hb).
  eexists _, _. split; [exact Hsp|]. split; [exact Ha|]. split; [exact Hb|].
  split; [intros t; apply (split_at_partition r d s); auto; lia|].
  split; [intros t; apply (split_at_partition r d s); auto; lia|].
  split; [exact Hsz|]. split; [lia|]. split; [lia|].
  exists d. split; [auto|]. split.
  - intros k Hk. specialize (Hmax k Hk). unfold range_sizes in Hmax. rewrite !vsub_nth in Hmax by lia. exact Hmax.
  - cbn [lower upper]. split.
    + intros k Hk Hne. rewrite !set_nth_nth by lia. destruct (Nat.eqb_spec k d); [contradiction|auto].
    + rewrite !set_nth_nth by lia. rewrite Nat.eqb_refl.
      pose proof (Z.div_mod (nth d (lower r) 0 + nth d (upper r) 0) 2).
      pose proof (Z.mod_pos_bound (nth d (lower r) 0 + nth d (upper r) 0) 2). lia.
Qed.

Lemma C06_lemma : forall a b c, length a = length b -> length b = length c ->
  tid_lt a a = false /\ (tid_lt a b = true -> tid_lt b a = false) /\
  (tid_lt a b = true -> tid_lt b c = true -> tid_lt a c = true) /\
  (tid_lt a b = true <-> a <> [] /\ nth 0 a 0 < nth 0 b 0 /\ forall d, (0 < d < length a)%nat -> nth d a 0 <= nth d b 0).
Proof.
  intros a b c Hab Hbc. split; [|split; [|split]].
  - destruct (tid_lt a a) eqn:E; auto. apply tid_lt_spec in E; auto. lia.
  - intros H. destruct (tid_lt b a) eqn:E; auto. apply tid_lt_spec in E; auto. apply tid_lt_spec in H; auto. lia.
  - intros H1 H2. apply tid_lt_spec in H1; auto. apply tid_lt_spec in H2; auto. apply tid_lt_spec; [lia|].
    destruct H1 as (N & L1 & M1), H2 as (_ & L2 & M2). split; [auto|split; [lia|]].
    intros d Hd. specialize (M1 d Hd). specialize (M2 d). lia.
  - now apply tid_lt_spec.
Qed.

Lemma C07_lemma : forall r total f, Forall (fun s => 0 < s) total -> cells total <= INT_MAX ->
  length (lower r) = length total -> length (upper r) = length total -> 0 <= f ->
  exists b, in_range_flat r f total = Ret b /\
    (b = true <-> exists t, valid_index total t /\ lex total t = f /\ in_box (lower r) (upper r) t).
Proof.
  intros r total f Hp Hb H1 H2 Hf. destruct (Z.lt_ge_cases f (cells total)) as [C|C].
  - destruct (to_tensor_ok total f) as (t & Ht & Hv & <-); auto.
    exists (in_range r t). split; [apply in_range_flat_ok; auto|].
    pose proof (valid_index_length _ _ Hv). rewrite in_range_box by lia. split.
    + intros Hin. exists t; auto.
    + intros (u & Hu & El & Hbx). apply lex_inj in El; auto. subst. auto.
  - exists false. split.
    + unfold in_range_flat. replace (0 <=? f) with true by lia. unfold assert_. rewrite size_prod_cells.
      replace (cells total <=? f) with true by lia. reflexivity.
    + split; [discriminate|]. intros (t & Hv & <- & _). pose proof (lex_bounds _ _ Hv). lia.
Qed.
