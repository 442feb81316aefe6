From Verif Require Import M_Domain S_Domain S_Grid L_Real L_BBox L_Grid L_TensorIndex.
From Coq Require Import Lra Sorting.Sorted Permutation.
Open Scope Z_scope.

(** ** Sorting *)
Lemma zinsert_perm x l : Permutation (zinsert x l) (x :: l).
Proof.
  induction l as [|y l IH]; simpl; auto. destruct (x <=? y); auto.
  rewrite IH. apply perm_swap.
Qed.
Lemma zsort_perm l : Permutation (zsort l) l.
Proof. induction l as [|x l IH]; simpl; auto. rewrite zinsert_perm. now constructor. Qed.
Lemma zinsert_sorted x l : StronglySorted Z.le l -> StronglySorted Z.le (zinsert x l).
Proof.
  induction 1 as [|y l Hs IH Hy]; simpl; [repeat constructor|].
  destruct (Z.leb_spec x y).
  - constructor; [constructor; auto|]. constructor; auto. eapply Forall_impl; [|exact Hy]. simpl; intros; lia.
  - constructor; auto. eapply Permutation_Forall; [symmetry; apply zinsert_perm|]. constructor; auto. lia.
Qed.
Lemma zsort_sorted l : StronglySorted Z.le (zsort l).
Proof. induction l; simpl; [constructor|]. now apply zinsert_sorted. Qed.
Lemma sorted_nodup_lt l : StronglySorted Z.le l -> NoDup l -> StronglySorted Z.lt l.
Proof.
  induction 1 as [|x l Hs IH Hx]; intros Hn; constructor; inversion Hn; subst; auto.
  apply Forall_forall. intros y Hy. rewrite Forall_forall in Hx. specialize (Hx y Hy).
  assert (x <> y) by (intros ->; contradiction). lia.
Qed.
Lemma zsort_lt l : NoDup l -> StronglySorted Z.lt (zsort l).
Proof. intros H. apply sorted_nodup_lt; [apply zsort_sorted|]. eapply Permutation_NoDup; [symmetry; apply zsort_perm|auto]. Qed.
Lemma zsort_in x l : In x (zsort l) <-> In x l.
Proof. split; apply Permutation_in; [|symmetry]; apply zsort_perm. Qed.
Lemma zsort_length l : length (zsort l) = length l.
Proof. apply Permutation_length, zsort_perm. Qed.

Lemma sorted_lt_nodup l : StronglySorted Z.lt l -> NoDup l.
Proof.
  induction 1 as [|x l Hs IH Hx]; constructor; auto. intros Hin. rewrite Forall_forall in Hx.
  specialize (Hx x Hin). lia.
Qed.

(** ** Map *)
Lemma fm_contains_in m k : fm_contains m k = true <-> In k (map fst m).
Proof.
  unfold fm_contains. rewrite existsb_exists, in_map_iff. split.
  - intros (e & He & E). exists e. split; [lia|auto].
  - intros (e & E & He). exists e. split; [auto|lia].
Qed.
Lemma fm_contains_false m k : fm_contains m k = false <-> ~ In k (map fst m).
Proof. rewrite <- fm_contains_in. destruct (fm_contains m k); split; congruence. Qed.
Lemma fm_find_none m k : ~ In k (map fst m) -> fm_find m k = None.
Proof. induction m as [|e m IH]; simpl; auto. intros H. destruct (Z.eqb_spec (fst e) k); [tauto|]. apply IH; tauto. Qed.
Lemma fm_find_some m k v : NoDup (map fst m) -> In (k, v) m -> fm_find m k = Some v.
Proof.
  induction m as [|e m IH]; simpl; [tauto|]. intros Hn [->|Hin]; simpl.
  - now rewrite Z.eqb_refl.
  - inversion Hn; subst. destruct (Z.eqb_spec (fst e) k); [|auto].
    exfalso. apply H1. rewrite e0. apply in_map_iff. exists (k, v); auto.
Qed.
Lemma fm_find_in m k v : fm_find m k = Some v -> In (k, v) m.
Proof.
  induction m as [|[a b] m IH]; simpl; [discriminate|]. destruct (Z.eqb_spec a k); auto.
  intros E; injection E as <-. subst; auto.
Qed.
Lemma fm_find_perm m m' k : Permutation m m' -> NoDup (map fst m) -> fm_find m k = fm_find m' k.
Proof.
  intros Hp Hn. assert (NoDup (map fst m')) as Hn' by (eapply Permutation_NoDup; [apply Permutation_map; exact Hp|auto]).
  destruct (fm_find m k) as [v|] eqn:E.
  - symmetry. apply fm_find_some; auto. apply fm_find_in in E. eapply Permutation_in; eauto.
  - symmetry. apply fm_find_none. intros Hin. apply in_map_iff in Hin as ([a b] & <- & Hin). simpl in *.
    assert (In (a, b) m) by (eapply Permutation_in; [symmetry; eauto|auto]).
    erewrite fm_find_some in E; eauto. discriminate.
Qed.

(** ** Monadic loops *)
Lemma filterM_ok {A} (f : A -> outcome bool) (g : A -> bool) l : (forall a, In a l -> f a = Ret (g a)) -> filterM f l = Ret (filter g l).
Proof.
  induction l as [|a l IH]; intros H; simpl; auto. rewrite H by (left; auto). cbn [bind].
  rewrite IH by (intros; apply H; right; auto). cbn [bind]. now destruct (g a).
Qed.
Lemma concatM_ok {A B} (f : A -> outcome (list B)) (g : A -> list B) l : (forall a, In a l -> f a = Ret (g a)) -> concatM f l = Ret (flat_map g l).
Proof.
  induction l as [|a l IH]; intros H; simpl; auto. rewrite H by (left; auto). cbn [bind].
  rewrite IH by (intros; apply H; right; auto). reflexivity.
Qed.

(** ** Subranges of a grid *)
Section Ranges.
Context (g : grid) (Hg : grid_facts g).
Let n := length (breaks g).
Let sz := num_cells_dir g.
Hypothesis Hcells : cells sz <= INT_MAX.
Hypothesis Hdir : Forall (fun s => s <= 2 ^ 30) sz.

Definition okr (r : range) : Prop := nonempty_dirs r /\ length (lower r) = n /\
  forall d, (d < n)%nat -> 0 <= nth d (lower r) 0 /\ nth d (upper r) 0 <= nth d sz 0.

Definition inr (r : range) (x : list Z) : Prop := in_box (lower r) (upper r) x.

Lemma okr_upper r : okr r -> length (upper r) = n.
Proof. intros (H & E & _). rewrite <- (nonempty_length _ H). exact E. Qed.
Lemma sz_len : length sz = n.
Proof. apply size_length; auto. Qed.

Lemma okr_valid r x : okr r -> inr r x -> valid_index sz x.
Proof.
  intros (H1 & H2 & H3) (L1 & L2 & Hx). apply valid_nth; auto. fold n. split; [lia|].
  intros d Hd. specialize (H3 d Hd). specialize (Hx d ltac:(lia)). fold sz. lia.
Qed.

Lemma okr_full : exists r, full_sub g = Ret r /\ okr r /\ range_size r = cells sz /\ forall x, inr r x <-> valid_index sz x.
Proof.
  pose proof (size_pos g Hg) as Hp. fold sz in Hp.
  set (r := mk_range (map (fun _ => 0) sz) sz).
  assert (range_size r = cells sz) as Hs.
  { unfold range_size, range_sizes, r; simpl. rewrite vsub_zeros by auto. apply size_prod_cells. }
  exists r. split; [|split; [|split]]; auto.
  - unfold full_sub, make_sub. fold sz. fold r. rewrite assert_true; auto. pose proof (cells_pos _ Hp). lia.
  - split; [|split].
    + unfold nonempty_dirs, r; simpl. clear -Hp. induction Hp; simpl; constructor; auto.
    + unfold r; simpl. rewrite map_length. apply sz_len.
    + intros d Hd. unfold r; simpl. rewrite nth_zeros. lia.
  - intros x. unfold inr, r, in_box; cbn [lower upper]. rewrite map_length, sz_len. split.
    + intros (L1 & L2 & Hx). apply valid_nth; auto. fold n sz. split; [lia|]. intros d Hd. specialize (Hx d ltac:(lia)). rewrite nth_zeros in Hx. lia.
    + intros Hv. apply valid_nth in Hv as [L Hv]; auto. fold n sz in L, Hv. split; [lia|]. split; [lia|].
      intros d Hd. rewrite nth_zeros. apply Hv. lia.
Qed.

Lemma okr_split r : okr r -> 1 < range_size r ->
  exists a b, sub_split r = Ret (a, b) /\ okr a /\ okr b /\
    (forall x, inr r x <-> inr a x \/ inr b x) /\ (forall x, ~ (inr a x /\ inr b x)) /\
    range_size a + range_size b = range_size r /\ 0 < range_size a /\ 0 < range_size b.
Proof.
  intros (H1 & H2 & H3) Hs. pose proof (nonempty_length _ H1) as Hlen.
  destruct (split_range_ok r H1 Hs) as (a & b & d & s & Hsp & Hd & Hmax & Hlt & Es & -> & ->).
  { apply Forall_forall. intros y Hy. apply (In_nth _ _ 0) in Hy as (k & Hk & <-). apply H3. lia. }
  { intros k Hk. destruct (H3 k ltac:(lia)) as [_ Hu]. pose proof (nonempty_nth r k H1 Hk).
    rewrite Forall_forall in Hdir. assert (nth k sz 0 <= 2 ^ 30) by (apply Hdir, nth_In; rewrite sz_len; lia).
    unfold INT_MAX. lia. }
  destruct (split_nonempty r d s H1 Hd Hlt) as [Ha Hb].
  pose proof (split_sizes r d s Hlen Hd) as Hsz.
  pose proof (range_size_pos _ Ha). pose proof (range_size_pos _ Hb).
  eexists _, _. split; [|split; [|split; [|split; [|split; [|split]]]]].
  - unfold sub_split. rewrite assert_true by (unfold sub_is_unique; lia). rewrite Hsp. cbn [bind fst snd].
    unfold make_sub. rewrite !assert_true by lia. reflexivity.
  - split; [exact Ha|]. cbn [lower upper]. split; [auto|]. intros k Hk. rewrite set_nth_nth by lia.
    specialize (H3 k Hk). destruct (Nat.eqb_spec k d); subst; lia.
  - split; [exact Hb|]. cbn [lower upper]. rewrite set_nth_length. split; [auto|]. intros k Hk. rewrite set_nth_nth by lia.
    specialize (H3 k Hk). destruct (Nat.eqb_spec k d); subst; lia.
  - intros x. apply (split_at_partition r d s); auto; lia.
  - intros x. apply (split_at_partition r d s); auto; lia.
  - exact Hsz.
  - lia.
Qed.

(** Box of a range. *)
Definition rlo (r : range) : list R := map2 (fun b i => nth (Z.to_nat i) b 0%R) (breaks g) (lower r).
Definition rhi (r : range) : list R := map2 (fun b i => nth (Z.to_nat i) b 0%R) (breaks g) (upper r).
Lemma rlo_nth r d : okr r -> (d < n)%nat -> nth d (rlo r) 0%R = nth (Z.to_nat (nth d (lower r) 0)) (nth d (breaks g) []) 0%R.
Proof. intros (_ & H & _) Hd. unfold rlo. fold n in H. now rewrite (map2_nth _ [] 0) by (fold n; lia). Qed.
Lemma rhi_nth r d : okr r -> (d < n)%nat -> nth d (rhi r) 0%R = nth (Z.to_nat (nth d (upper r) 0)) (nth d (breaks g) []) 0%R.
Proof. intros H Hd. pose proof (okr_upper _ H). unfold rhi. now rewrite (map2_nth _ [] 0) by (fold n; lia). Qed.

Lemma rlo_length r : okr r -> length (rlo r) = n.
Proof. intros (_ & H & _). unfold rlo. rewrite map2_length; auto. Qed.
Lemma rhi_length r : okr r -> length (rhi r) = n.
Proof. intros H. pose proof (okr_upper _ H). unfold rhi. rewrite map2_length; auto. Qed.
Lemma rlo_le_rhi r d : okr r -> (d < n)%nat -> (nth d (rlo r) 0 <= nth d (rhi r) 0)%R.
Proof.
  intros H Hd. rewrite rlo_nth, rhi_nth by auto. pose proof (gf_good g Hg d Hd) as Hgd. apply good_le; auto.
  destruct H as (Hne & HL & H3). specialize (H3 d Hd). pose proof (nonempty_nth r d Hne ltac:(lia)).
  unfold sz in H3. rewrite size_nth in H3 by auto. lia.
Qed.

Lemma sub_domain_ok r : okr r -> sub_domain g r = Ret (mk_box (rlo r) (rhi r)).
Proof.
  intros H. pose proof H as (Hne & HL & H3). pose proof (okr_upper _ H) as HU. unfold sub_domain.
  rewrite (map2M_ok _ (fun b i => nth (Z.to_nat i) b 0%R) [] 0); [|fold n; lia|].
  2:{ intros d Hd. apply at_ok. specialize (H3 d Hd). pose proof (nonempty_nth r d Hne ltac:(lia)). unfold sz in H3. rewrite size_nth in H3 by auto. lia. }
  cbn [bind].
  rewrite (map2M_ok _ (fun b i => nth (Z.to_nat i) b 0%R) [] 0); [|fold n; lia|].
  2:{ intros d Hd. apply at_ok. specialize (H3 d Hd). pose proof (nonempty_nth r d Hne ltac:(lia)). unfold sz in H3. rewrite size_nth in H3 by auto. lia. }
  cbn [bind]. fold (rlo r) (rhi r). unfold box_set. rewrite assert_true; auto.
  apply all_leR_true. intros d Hd _. rewrite rlo_length in Hd by auto. now apply rlo_le_rhi.
Qed.

Lemma nth_map_R (f : R -> R) l d : (d < length l)%nat -> nth d (map f l) 0%R = f (nth d l 0%R).
Proof. intros H. rewrite (nth_indep _ 0%R (f 0%R)) by now rewrite map_length. apply map_nth. Qed.

Lemma eps1000_pos : (0 < eps * 1000)%R.
Proof. unfold eps. pose proof (pow_lt 2 52). assert (0 < / 2 ^ 52)%R by (apply Rinv_0_lt_compat; lra). lra. Qed.

Definition ext (lo hi : list R) : bbox := mk_box (map (fun x => x - eps * 1000)%R lo) (map (fun x => x + eps * 1000)%R hi).
Lemma extend_ok r : okr r -> box_extend (mk_box (rlo r) (rhi r)) (eps * 1000) = Ret (ext (rlo r) (rhi r)).
Proof.
  intros H. unfold box_extend, box_set. cbn [bmin bmax]. rewrite assert_true; auto.
  apply all_leR_true. intros d Hd Hd'. rewrite map_length in Hd, Hd'. rewrite !nth_map_R by auto.
  rewrite rlo_length in Hd by auto. pose proof (rlo_le_rhi r d H Hd). pose proof eps1000_pos. lra.
Qed.

Lemma ext_contains r x : okr r -> inr r x -> contains_enlarged (eps * 1000) (cell_lo g x) (cell_hi g x) (ext (rlo r) (rhi r)).
Proof.
  intros H Hx p (L1 & L2 & Hp). pose proof (okr_valid _ _ H Hx) as Hv. apply valid_nth in Hv as [Lx Hv]; auto. fold n sz in Lx, Hv.
  rewrite (cell_lo_length g) in L1 by auto. fold n in L1. unfold ext; cbn [bmin bmax].
  split; [rewrite map_length, rlo_length; auto|]. split; [rewrite map_length, rhi_length; auto|].
  intros d Hd. assert (d < n)%nat as Hdn by lia. rewrite !nth_map_R by (rewrite ?rlo_length, ?rhi_length; auto).
  specialize (Hp d Hd). rewrite (cell_lo_nth g), (cell_hi_nth g) in Hp by auto. rewrite rlo_nth, rhi_nth by auto.
  pose proof (gf_good g Hg d Hdn) as Hgd. destruct Hx as (_ & _ & Hx). specialize (Hx d ltac:(lia)).
  destruct H as (Hne & HL & H3). specialize (H3 d Hdn). unfold sz in H3. rewrite size_nth in H3 by auto.
  assert (nth (Z.to_nat (nth d (lower r) 0%Z)) (nth d (breaks g) []) 0 <= nth (Z.to_nat (nth d x 0%Z)) (nth d (breaks g) []) 0)%R by (apply good_le; auto; lia).
  assert (nth (S (Z.to_nat (nth d x 0%Z))) (nth d (breaks g) []) 0 <= nth (Z.to_nat (nth d (upper r) 0%Z)) (nth d (breaks g) []) 0)%R by (apply good_le; auto; lia).
  lra.
Qed.

(** Single-cell ranges. *)
Lemma size_prod_one l : Forall (fun s => 0 < s) l -> size_prod l = 1 -> Forall (fun s => s = 1) l.
Proof.
  induction 1 as [|x l Hx H IH]; simpl; intros E; constructor.
  - rewrite size_prod_cells in E. pose proof (cells_pos l H). nia.
  - apply IH. rewrite size_prod_cells in *. pose proof (cells_pos l H). nia.
Qed.
Lemma unique_range r : okr r -> range_size r = 1 -> r = mk_range (lower r) (map (Z.add 1) (lower r)) /\
  (forall x, inr r x <-> x = lower r) /\ rlo r = cell_lo g (lower r) /\ rhi r = cell_hi g (lower r).
Proof.
  intros H E. pose proof H as (Hne & HL & H3). pose proof (sizes_pos _ Hne) as Hp. pose proof (nonempty_length _ Hne) as Hlen.
  pose proof (size_prod_one _ Hp E) as H1. 
  assert (upper r = map (Z.add 1) (lower r)) as EU.
  { unfold range_sizes in H1. destruct r as [lo hi]; cbn [lower upper] in *. clear -H1 Hlen. revert hi H1 Hlen.
    induction lo as [|l lo IH]; intros [|h hi] H1 Hlen; cbn [vsub map length] in *; try lia; auto. inversion H1; subst. f_equal; [lia|]. apply IH; auto. }
  split; [|split; [|split]].
  - destruct r; simpl in *; congruence.
  - intros x. unfold inr. rewrite EU. split.
    + intros (L1 & L2 & Hx). apply (nth_ext _ _ 0 0); [lia|]. intros d Hd. specialize (Hx d Hd).
      rewrite (nth_indep (map _ _) 0 (1 + 0)) in Hx by (rewrite map_length; lia). rewrite map_nth in Hx. lia.
    + intros ->. split; [auto|]. split; [apply map_length|]. intros d Hd.
      rewrite (nth_indep (map _ _) 0 (1 + 0)) by (rewrite map_length; lia). rewrite map_nth. lia.
  - reflexivity.
  - apply (nth_ext _ _ 0%R 0%R); [rewrite rhi_length, (cell_hi_length g); auto|]. intros d Hd. rewrite rhi_length in Hd by auto.
    rewrite rhi_nth, (cell_hi_nth g) by auto. rewrite EU. specialize (H3 d Hd).
    rewrite (nth_indep (map _ _) 0 (1 + 0)) by (rewrite map_length; lia). rewrite map_nth. f_equal. lia.
Qed.
End Ranges.
