From Verif Require Import M_Real M_BBox M_Grid S_Grid S_TensorIndex L_TensorIndex L_Real L_BBox.
From Coq Require Import Lra Sorting.Sorted ZifyBool.
Open Scope R_scope.

(** ** One direction *)
Definition good (b : list R) : Prop := (1 < length b)%nat /\ forall i j, (i < j < length b)%nat -> nth i b 0 < nth j b 0.

Lemma increasing_nth b : incr_breaks b = true -> forall i j, (i < j < length b)%nat -> nth i b 0 < nth j b 0.
Proof.
  induction b as [|x b IH]; intros H i j Hij; simpl in *; [lia|].
  assert (incr_breaks b = true) as Hb.
  { destruct b; auto. apply andb_true_iff in H. tauto. }
  destruct i as [|i], j as [|j]; try lia.
  - destruct b as [|y b]; simpl in Hij; [lia|]. apply andb_true_iff in H as [Hxy _]. apply Rltb_true in Hxy.
    destruct j as [|j]; [exact Hxy|].
    apply Rlt_trans with y; auto. apply (IH Hb O (S j)). simpl; lia.
  - apply IH; auto. lia.
Qed.

Lemma nth_increasing b : (forall i j, (i < j < length b)%nat -> nth i b 0 < nth j b 0) -> incr_breaks b = true.
Proof.
  induction b as [|x b IH]; intros H; auto. destruct b as [|y b]; auto.
  cbn [incr_breaks]. apply andb_true_iff. split.
  - apply Rltb_true. apply (H O 1%nat). simpl; lia.
  - apply IH. intros i j Hij. apply (H (S i) (S j)). simpl in *; lia.
Qed.

Lemma good_le b i j : good b -> (i <= j < length b)%nat -> nth i b 0 <= nth j b 0.
Proof. intros [_ H] Hij. destruct (Nat.eq_dec i j); [subst; lra|]. left. apply H. lia. Qed.

Lemma upper_bound_spec b v : (0 <= upper_bound b v <= Z.of_nat (length b))%Z /\
  (forall i, (Z.of_nat i < upper_bound b v)%Z -> nth i b 0 <= v) /\
  ((upper_bound b v < Z.of_nat (length b))%Z -> v < nth (Z.to_nat (upper_bound b v)) b 0).
Proof.
  induction b as [|x b IH]; cbn [upper_bound length].
  - split; [lia|]. split; intros; lia.
  - destruct (Rltb_spec v x) as [C|C].
    + split; [lia|]. split; [intros; lia|]. intros _. simpl. auto.
    + destruct IH as (I1 & I2 & I3). split; [lia|]. split.
      * intros [|i] Hi; simpl; [lra|]. apply I2. lia.
      * intros Hlt. replace (Z.to_nat (1 + upper_bound b v)) with (S (Z.to_nat (upper_bound b v))) by lia.
        simpl. apply I3. lia.
Qed.

Lemma find_span_ok tol b x : 0 <= tol -> good b -> nth 0 b 0 <= x <= nth (length b - 1) b 0 ->
  exists i : Z, find_span tol b x = Ret i /\ (0 <= i < Z.of_nat (length b) - 1)%Z /\
    nth (Z.to_nat i) b 0 - tol <= x <= nth (S (Z.to_nat i)) b 0 /\
    (* no break further right is within tolerance, except the last one *)
    (forall k, (Z.to_nat i < k)%nat -> (k < length b - 1)%nat -> x + tol < nth k b 0).
Proof.
  intros Ht Hg Hx. pose proof Hg as [Hlen Hinc]. unfold find_span. rewrite assert_true by lia.
  destruct (upper_bound_spec b (x + tol)) as (U1 & U2 & U3). set (ub := upper_bound b (x + tol)) in *.
  assert (1 <= ub)%Z as Hub.
  { destruct (Z.le_gt_cases 1 ub); auto. exfalso. assert (ub = 0)%Z as E by lia. rewrite E in U3.
    specialize (U3 ltac:(lia)). change (Z.to_nat 0) with O in U3. lra. }
  destruct (Z.eqb_spec ub 0) as [|_]; [lia|].
  rewrite (at_ok _ _ 0) by lia. cbn [bind].
  assert (nth (Z.to_nat (ub - 1)) b 0 <= x + tol) as Hlow by (apply U2; lia).
  destruct (Z.eqb_spec (ub - 1) (Z.of_nat (length b) - 1)) as [E|E].
  - replace (Z.to_nat (ub - 1)) with (length b - 1)%nat in * by lia.
    assert (tol_equal tol x (nth (length b - 1) b 0) = true) as ->.
    { unfold tol_equal. apply Rleb_true. apply Rabs_le. lra. }
    cbn [andb]. rewrite assert_true by lia. exists (ub - 1 - 1)%Z.
    split; [auto|]. split; [lia|].
    replace (S (Z.to_nat (ub - 1 - 1))) with (length b - 1)%nat by lia.
    replace (Z.to_nat (ub - 1 - 1)) with (length b - 2)%nat by lia.
    assert (nth (length b - 2) b 0 < nth (length b - 1) b 0) by (apply Hinc; lia).
    split; [lra|]. intros; lia.
  - rewrite andb_false_r. rewrite assert_true by lia. exists (ub - 1)%Z.
    specialize (U3 ltac:(lia)). split; [auto|]. split; [lia|].
    replace (S (Z.to_nat (ub - 1))) with (Z.to_nat ub) by lia.
    split; [lra|]. intros k Hk1 Hk2. pose proof (good_le b (Z.to_nat ub) k Hg). 
    assert (nth (Z.to_nat ub) b 0 <= nth k b 0) by (apply good_le; auto; lia). lra.
Qed.

(** ** Grids *)
Definition grid_ok (g : grid) : Prop := exists brks, brks <> [] /\ make_grid brks = Ret g.

Lemma all_leR_true a b : (forall d, (d < length a)%nat -> (d < length b)%nat -> nth d a 0 <= nth d b 0) -> all_leR a b = true.
Proof.
  revert b; induction a as [|x a IH]; intros [|y b] H; simpl in *; auto.
  apply andb_true_iff. split; [apply Rleb_true, (H O); lia|]. apply IH. intros d H1 H2. apply (H (S d)); lia.
Qed.

Lemma last_nth {A} (l : list A) d : last l d = nth (length l - 1) l d.
Proof.
  induction l as [|x l IH]; auto. destruct l as [|y l]; auto.
  change (last (y :: l) d = nth (length l) (y :: l) d). rewrite IH. simpl. now rewrite Nat.sub_0_r.
Qed.
Lemma hd_nth {A} (l : list A) d : hd d l = nth 0 l d.
Proof. destruct l; auto. Qed.

Lemma vsub_zeros {A} (brks : list A) (l : list Z) : length brks = length l -> vsub l (map (fun _ => 0%Z) brks) = l.
Proof. revert l; induction brks as [|b brks IH]; intros [|x l]; simpl; intros; try lia; auto. f_equal; [lia|apply IH; lia]. Qed.

Record grid_facts (g : grid) : Prop := {
  gf_ne : breaks g <> [];
  gf_good : forall d, (d < length (breaks g))%nat -> good (nth d (breaks g) []);
  gf_min : bmin (gdomain g) = map (fun b => nth 0 b 0) (breaks g);
  gf_max : bmax (gdomain g) = map (fun b => nth (length b - 1) b 0) (breaks g);
  gf_size : num_cells_dir g = n_cells_dir (breaks g) }.

Lemma make_grid_facts brks g : brks <> [] -> make_grid brks = Ret g -> grid_facts g /\ breaks g = brks.
Proof.
  intros Hne H. unfold make_grid, assert_ in H.
  destruct (forallb _ brks) eqn:E; [|discriminate].
  unfold box_set, assert_ in H. destruct (all_leR _ _); [|discriminate]. cbn [bind] in H.
  injection H as <-. split; [|auto]. rewrite forallb_forall in E. constructor; simpl; auto.
  - intros d Hd. specialize (E (nth d brks [])). rewrite andb_true_iff in E.
    destruct E as [E1 E2]; [now apply nth_In|]. split; [lia|]. now apply increasing_nth.
  - apply map_ext. intros. apply hd_nth.
  - apply map_ext. intros. apply last_nth.
  - unfold num_cells_dir, range_sizes; simpl. apply vsub_zeros. unfold n_cells_dir. now rewrite map_length.
Qed.

Lemma make_grid_ok brks : (forall d, (d < length brks)%nat -> good (nth d brks [])) -> exists g, make_grid brks = Ret g.
Proof.
  intros H. unfold make_grid. rewrite assert_true.
  - unfold box_set. rewrite assert_true; [cbn [bind]; eauto|].
    apply all_leR_true. rewrite !map_length. intros d Hd _.
    rewrite (nth_indep _ 0 (hd 0 [])) by now rewrite map_length. rewrite (map_nth (fun b => hd 0 b)).
    rewrite (nth_indep _ 0 (last [] 0)) by now rewrite map_length. rewrite (map_nth (fun b => last b 0)).
    rewrite hd_nth, last_nth. apply good_le; auto. destruct (H d Hd). lia.
  - apply forallb_forall. intros b Hb. apply (In_nth _ _ []) in Hb as (d & Hd & <-).
    destruct (H d Hd) as [H1 H2]. apply andb_true_iff. split; [lia|]. now apply nth_increasing.
Qed.

Lemma grid_ok_facts g : grid_ok g -> grid_facts g.
Proof. intros (brks & Hne & H). now apply make_grid_facts in H. Qed.

Section OneGrid.
Context (g : grid) (Hg : grid_facts g).
Let B := breaks g.
Let n := length B.

Lemma size_length : length (num_cells_dir g) = n.
Proof. rewrite (gf_size g Hg). unfold n_cells_dir. now rewrite map_length. Qed.
Lemma size_nth d : (d < n)%nat -> nth d (num_cells_dir g) 0%Z = (Z.of_nat (length (nth d B [])) - 1)%Z.
Proof.
  intros Hd. rewrite (gf_size g Hg). unfold n_cells_dir.
  rewrite (nth_indep _ 0%Z ((fun b : list R => (Z.of_nat (length b) - 1)%Z) [])) by (rewrite map_length; exact Hd).
  now rewrite (map_nth (fun b : list R => (Z.of_nat (length b) - 1)%Z)).
Qed.
Lemma size_pos : Forall (fun s => 0 < s)%Z (num_cells_dir g).
Proof.
  apply Forall_forall. intros s Hs. apply (In_nth _ _ 0%Z) in Hs as (d & Hd & <-). rewrite size_length in Hd.
  rewrite size_nth by auto. destruct (gf_good g Hg d Hd) as [Hx _]. fold B in Hx. lia.
Qed.
Lemma min_nth d : (d < n)%nat -> nth d (bmin (gdomain g)) 0 = nth 0 (nth d B []) 0.
Proof.
  intros Hd. rewrite (gf_min g Hg).
  rewrite (nth_indep _ 0 ((fun b : list R => nth 0 b 0) [])) by (rewrite map_length; exact Hd).
  now rewrite (map_nth (fun b : list R => nth 0 b 0)).
Qed.
Lemma max_nth d : (d < n)%nat -> nth d (bmax (gdomain g)) 0 = nth (length (nth d B []) - 1) (nth d B []) 0.
Proof.
  intros Hd. rewrite (gf_max g Hg).
  rewrite (nth_indep _ 0 ((fun b : list R => nth (length b - 1) b 0) [])) by (rewrite map_length; exact Hd). 
  now rewrite (map_nth (fun b : list R => nth (length b - 1) b 0)).
Qed.
Lemma min_length : length (bmin (gdomain g)) = n.
Proof. rewrite (gf_min g Hg). now rewrite map_length. Qed.
Lemma max_length : length (bmax (gdomain g)) = n.
Proof. rewrite (gf_max g Hg). now rewrite map_length. Qed.

Lemma valid_nth t : valid_index (num_cells_dir g) t <-> length t = n /\ forall d, (d < n)%nat -> (0 <= nth d t 0 < nth d (num_cells_dir g) 0)%Z.
Proof.
  unfold valid_index. rewrite <- size_length. generalize (num_cells_dir g) as s. clear.
  intros s. revert t. induction s as [|x s IH]; intros [|y t]; split.
  - intros _. split; auto. simpl; intros; lia.
  - constructor.
  - intros H; inversion H.
  - intros [H _]; discriminate.
  - intros H; inversion H.
  - intros [H _]; discriminate.
  - intros H; inversion H; subst. apply IH in H5 as [H5 H6]. split; [simpl; lia|].
    intros [|d] Hd; simpl; [lia|]. apply H6. simpl in Hd; lia.
  - intros [H1 H2]. constructor; [apply (H2 O); simpl; lia|]. apply IH. split; [simpl in H1; lia|].
    intros d Hd. apply (H2 (S d)). simpl; lia.
Qed.

(** get_cell_domain of the cell with tensor index [t]. *)
Definition cell_lo (t : list Z) : list R := map2 (fun b i => nth (Z.to_nat i) b 0) B t.
Definition cell_hi (t : list Z) : list R := map2 (fun b i => nth (S (Z.to_nat i)) b 0) B t.

Lemma cell_lo_nth t d : length t = n -> (d < n)%nat -> nth d (cell_lo t) 0 = nth (Z.to_nat (nth d t 0%Z)) (nth d B []) 0.
Proof. intros. unfold cell_lo. now rewrite (map2_nth _ [] 0%Z) by (fold n; lia). Qed.
Lemma cell_hi_nth t d : length t = n -> (d < n)%nat -> nth d (cell_hi t) 0 = nth (S (Z.to_nat (nth d t 0%Z))) (nth d B []) 0.
Proof. intros. unfold cell_hi. now rewrite (map2_nth _ [] 0%Z) by (fold n; lia). Qed.
Lemma cell_lo_length t : length t = n -> length (cell_lo t) = n.
Proof. intros. unfold cell_lo. rewrite map2_length; auto. Qed.
Lemma cell_hi_length t : length t = n -> length (cell_hi t) = n.
Proof. intros. unfold cell_hi. rewrite map2_length; auto. Qed.

Hypothesis Hcells : (cells (num_cells_dir g) <= INT_MAX)%Z.

Lemma cell_pos t d : valid_index (num_cells_dir g) t -> (d < n)%nat -> nth d (cell_lo t) 0 < nth d (cell_hi t) 0.
Proof.
  intros Hv Hd. apply valid_nth in Hv as [Hl Hv]. rewrite cell_lo_nth, cell_hi_nth by auto.
  specialize (Hv d Hd). rewrite size_nth in Hv by auto. destruct (gf_good g Hg d Hd) as [_ H]. apply H. fold B. lia.
Qed.

Lemma cell_domain_ok t : valid_index (num_cells_dir g) t ->
  get_cell_domain g (lex (num_cells_dir g) t) = Ret (mk_box (cell_lo t) (cell_hi t)).
Proof.
  intros Hv. unfold get_cell_domain. rewrite to_tensor_lex by auto. cbn [bind].
  pose proof Hv as Hv'. apply valid_nth in Hv' as [Hl Hv'].
  rewrite (map2M_ok _ (fun b i => nth (Z.to_nat i) b 0) [] 0%Z); [|fold B n; lia|].
  2:{ intros d Hd. apply at_ok. specialize (Hv' d Hd). rewrite size_nth in Hv' by auto. fold B. lia. }
  cbn [bind].
  rewrite (map2M_ok _ (fun b i => nth (S (Z.to_nat i)) b 0) [] 0%Z); [|fold B n; lia|].
  2:{ intros d Hd. specialize (Hv' d Hd). rewrite size_nth in Hv' by auto. rewrite (at_ok _ _ 0) by (fold B; lia).
      f_equal. f_equal. lia. }
  cbn [bind]. fold B. fold (cell_lo t) (cell_hi t). unfold box_set. rewrite assert_true; auto.
  apply all_leR_true. intros d Hd _. rewrite cell_lo_length in Hd by auto. left. now apply cell_pos.
Qed.

Lemma get_cell_id_ok tol p : 0 <= tol -> in_closed (bmin (gdomain g)) (bmax (gdomain g)) p ->
  exists t, valid_index (num_cells_dir g) t /\ get_cell_id g p tol = Ret (lex (num_cells_dir g) t) /\
    forall d, (d < n)%nat -> nth d (cell_lo t) 0 - tol <= nth d p 0 <= nth d (cell_hi t) 0 /\
      (forall k, (Z.to_nat (nth d t 0%Z) < k < length (nth d B []) - 1)%nat -> nth d p 0 + tol < nth k (nth d B []) 0).
Proof.
  intros Ht (HL1 & HL2 & Hp). rewrite min_length in HL1.
  destruct (map2M_ex (find_span tol) [] 0 0%Z
     (fun d i => (0 <= i < nth d (num_cells_dir g) 0)%Z /\
        nth (Z.to_nat i) (nth d B []) 0 - tol <= nth d p 0 <= nth (S (Z.to_nat i)) (nth d B []) 0 /\
        (forall k, (Z.to_nat i < k < length (nth d B []) - 1)%nat -> nth d p 0 + tol < nth k (nth d B []) 0)) (breaks g) p)
    as (t & Htid & Hlen & Hall).
  - exact HL1.
  - intros d Hd. fold B n in Hd. destruct (find_span_ok tol (nth d B []) (nth d p 0)) as (i & Hi & Hr & Hin & Hk); auto.
    + now apply (gf_good g Hg).
    + rewrite <- min_nth, <- max_nth by auto. apply Hp. lia.
    + exists i. split; [exact Hi|]. rewrite size_nth by auto. split; [lia|]. split; [auto|]. intros; apply Hk; lia.
  - fold B n in Hlen, Hall. exists t. assert (valid_index (num_cells_dir g) t) as Hv.
    { apply valid_nth. split; auto. intros d Hd. now apply Hall. }
    split; auto. split.
    + unfold get_cell_id. rewrite Htid. cbn [bind]. apply to_flat_ok; auto. pose proof int_max_64. lia.
    + intros d Hd. rewrite cell_lo_nth, cell_hi_nth by auto. apply Hall; auto.
Qed.

(** Two different valid indices differ in a direction. *)
Lemma tid_diff (t u : list Z) : length t = n -> length u = n -> t <> u -> exists d, (d < n)%nat /\ nth d t 0%Z <> nth d u 0%Z.
Proof.
  clear. revert t u. generalize n as m. induction m as [|m IH]; intros [|x t] [|y u] H1 H2 Hne; simpl in *; try lia; try congruence.
  destruct (Z.eq_dec x y) as [->|C].
  - destruct (IH t u) as (d & Hd & Hn); try lia; [congruence|]. exists (S d). split; [lia|auto].
  - exists O. split; [lia|auto].
Qed.

Lemma cells_disjoint t u p : valid_index (num_cells_dir g) t -> valid_index (num_cells_dir g) u -> t <> u ->
  in_open (cell_lo t) (cell_hi t) p -> in_open (cell_lo u) (cell_hi u) p -> False.
Proof.
  intros Ht Hu Hne (L1 & _ & P1) (L2 & _ & P2).
  pose proof Ht as Ht'. apply valid_nth in Ht' as [Lt Vt]. pose proof Hu as Hu'. apply valid_nth in Hu' as [Lu Vu].
  rewrite cell_lo_length in L1 by auto.
  destruct (tid_diff t u Lt Lu Hne) as (d & Hd & Hdn).
  specialize (P1 d ltac:(lia)). specialize (P2 d ltac:(lia)).
  rewrite cell_lo_nth, cell_hi_nth in P1, P2 by auto.
  specialize (Vt d Hd). specialize (Vu d Hd). rewrite size_nth in Vt, Vu by auto.
  pose proof (gf_good g Hg d Hd) as Hgd. fold B in Hgd.
  destruct (Z.lt_trichotomy (nth d t 0%Z) (nth d u 0%Z)) as [C|[C|C]]; [|contradiction|].
  - pose proof (good_le (nth d B []) (S (Z.to_nat (nth d t 0%Z))) (Z.to_nat (nth d u 0%Z)) Hgd). 
    assert (nth (S (Z.to_nat (nth d t 0%Z))) (nth d B []) 0 <= nth (Z.to_nat (nth d u 0%Z)) (nth d B []) 0) by (apply good_le; auto; lia).
    lra.
  - assert (nth (S (Z.to_nat (nth d u 0%Z))) (nth d B []) 0 <= nth (Z.to_nat (nth d t 0%Z)) (nth d B []) 0) by (apply good_le; auto; lia).
    lra.
Qed.

Lemma cell_within t : valid_index (num_cells_dir g) t ->
  box_within (cell_lo t) (cell_hi t) (bmin (gdomain g)) (bmax (gdomain g)).
Proof.
  intros Hv. apply valid_nth in Hv as [Hl Hv].
  split; [rewrite cell_lo_length, min_length; auto|]. split; [rewrite cell_hi_length, max_length; auto|].
  rewrite cell_lo_length by auto. intros d Hd. rewrite cell_lo_nth, cell_hi_nth, min_nth, max_nth by auto.
  specialize (Hv d Hd). rewrite size_nth in Hv by auto. pose proof (gf_good g Hg d Hd) as Hgd. fold B in Hgd.
  split; apply good_le; auto; lia.
Qed.

Lemma valid_exists f : (0 <= f < cells (num_cells_dir g))%Z -> exists t, valid_index (num_cells_dir g) t /\ lex (num_cells_dir g) t = f.
Proof. intros Hf. destruct (to_tensor_ok (num_cells_dir g) f) as (t & _ & Hv & Hl); auto using size_pos. eauto. Qed.
End OneGrid.

(** ** C08 *)
Lemma C08_lemma : forall brks g, brks <> [] -> make_grid brks = Ret g -> (num_cells g <= INT_MAX)%Z ->
  (forall f, (0 <= f < num_cells g)%Z -> exists lo hi, get_cell_domain g f = Ret (mk_box lo hi) /\
      positive_box lo hi /\ box_within lo hi (bmin (gdomain g)) (bmax (gdomain g))) /\
  (forall p, in_closed (bmin (gdomain g)) (bmax (gdomain g)) p ->
      exists f lo hi, (0 <= f < num_cells g)%Z /\ get_cell_domain g f = Ret (mk_box lo hi) /\ in_closed lo hi p) /\
  (forall f f' lo hi lo' hi' p, (0 <= f < num_cells g)%Z -> (0 <= f' < num_cells g)%Z -> f <> f' ->
      get_cell_domain g f = Ret (mk_box lo hi) -> get_cell_domain g f' = Ret (mk_box lo' hi') ->
      ~ (in_open lo hi p /\ in_open lo' hi' p)).
Proof.
  intros brks g Hne Hmk. destruct (make_grid_facts _ _ Hne Hmk) as [Hg _].
  unfold num_cells. rewrite size_prod_cells. intros Hc. split; [|split].
  - intros f Hf. destruct (valid_exists g Hg Hc f Hf) as (t & Hv & <-). exists (cell_lo g t), (cell_hi g t).
    pose proof Hv as Hv'. apply (valid_nth g Hg) in Hv' as [Hl _].
    split; [now apply cell_domain_ok|]. split; [|now apply cell_within].
    split; [now rewrite cell_lo_length, cell_hi_length by auto|]. rewrite cell_lo_length by auto.
    intros d Hd. now apply cell_pos.
  - intros p Hp. destruct (get_cell_id_ok g Hg Hc 0 p (Rle_refl 0) Hp) as (t & Hv & _ & Hin).
    exists (lex (num_cells_dir g) t), (cell_lo g t), (cell_hi g t).
    pose proof Hv as Hv'. apply (valid_nth g Hg) in Hv' as [Hl _].
    split; [now apply lex_bounds|]. split; [now apply cell_domain_ok|].
    destruct Hp as (P1 & P2 & _). rewrite (min_length g Hg) in P1. 
    split; [rewrite cell_lo_length; auto|]. split; [rewrite cell_hi_length; auto|].
    intros d Hd. destruct (Hin d) as [Hd' _]; [lia|]. lra.
  - intros f f' lo hi lo' hi' p Hf Hf' Hneq E1 E2 [H1 H2].
    destruct (valid_exists g Hg Hc f Hf) as (t & Hv & <-). destruct (valid_exists g Hg Hc f' Hf') as (u & Hu & <-).
    rewrite cell_domain_ok in E1, E2 by auto. injection E1 as <- <-. injection E2 as <- <-.
    eapply (cells_disjoint g Hg t u); eauto. congruence.
Qed.

(** ** C09 *)
Lemma C09_lemma : forall brks g p tol, brks <> [] -> make_grid brks = Ret g -> (num_cells g <= INT_MAX)%Z ->
  0 <= tol -> in_closed (bmin (gdomain g)) (bmax (gdomain g)) p ->
  exists f lo hi, get_cell_id g p tol = Ret f /\ (0 <= f < num_cells g)%Z /\
    get_cell_domain g f = Ret (mk_box lo hi) /\ in_enlarged tol lo hi p.
Proof.
  intros brks g p tol Hne Hmk. destruct (make_grid_facts _ _ Hne Hmk) as [Hg _].
  unfold num_cells. rewrite size_prod_cells. intros Hc Ht Hp.
  destruct (get_cell_id_ok g Hg Hc tol p Ht Hp) as (t & Hv & Hid & Hin).
  pose proof Hv as Hv'. apply (valid_nth g Hg) in Hv' as [Hl _].
  exists (lex (num_cells_dir g) t), (cell_lo g t), (cell_hi g t).
  split; [auto|]. split; [now apply lex_bounds|]. split; [now apply cell_domain_ok|].
  destruct Hp as (P1 & P2 & _). rewrite (min_length g Hg) in P1.
  split; [rewrite cell_lo_length; auto|]. split; [rewrite cell_hi_length; auto|].
  intros d Hd. destruct (Hin d) as [Hd' _]; [lia|]. lra.
Qed.

(** ** C10 *)
Lemma lex_mono size t u : valid_index size t -> valid_index size u ->
  (forall d, (d < length size)%nat -> (nth d t 0 <= nth d u 0)%Z) -> (lex size t <= lex size u)%Z.
Proof.
  intros Ht; revert u; induction Ht as [|s i size t Hi H IH]; intros u Hu Hle; inversion Hu; subst; simpl; [lia|].
  specialize (IH l' H4). pose proof (Hle O). simpl in H0. 
  assert (lex size t <= lex size l')%Z by (apply IH; intros d Hd; apply (Hle (S d)); simpl; lia). nia.
Qed.

Lemma C10_lemma : forall brks g p, brks <> [] -> make_grid brks = Ret g -> (num_cells g <= INT_MAX)%Z ->
  in_closed (bmin (gdomain g)) (bmax (gdomain g)) p ->
  exists f, get_cell_id g p 0 = Ret f /\
    (exists lo hi, get_cell_domain g f = Ret (mk_box lo hi) /\ in_closed lo hi p) /\
    (forall f' lo hi, (0 <= f' < num_cells g)%Z -> get_cell_domain g f' = Ret (mk_box lo hi) -> in_closed lo hi p -> (f' <= f)%Z).
Proof.
  intros brks g p Hne Hmk. destruct (make_grid_facts _ _ Hne Hmk) as [Hg _].
  unfold num_cells. rewrite size_prod_cells. intros Hc Hp.
  destruct (get_cell_id_ok g Hg Hc 0 p (Rle_refl 0) Hp) as (t & Hv & Hid & Hin).
  pose proof Hv as Hv'. apply (valid_nth g Hg) in Hv' as [Hl Hv'].
  exists (lex (num_cells_dir g) t). split; [auto|].
  destruct Hp as (P1 & P2 & _). rewrite (min_length g Hg) in P1. split.
  - exists (cell_lo g t), (cell_hi g t). split; [now apply cell_domain_ok|].
    split; [rewrite cell_lo_length; auto|]. split; [rewrite cell_hi_length; auto|].
    intros d Hd. destruct (Hin d) as [Hd' _]; [lia|]. lra.
  - intros f' lo hi Hf' Ed (_ & _ & Hcl). destruct (valid_exists g Hg Hc f' Hf') as (u & Hu & <-).
    rewrite cell_domain_ok in Ed by auto. injection Ed as <- <-.
    pose proof Hu as Hu'. apply (valid_nth g Hg) in Hu' as [Hlu Hu'].
    apply lex_mono; auto. rewrite (size_length g Hg). intros d Hd.
    destruct (Z.le_gt_cases (nth d u 0) (nth d t 0))%Z as [C|C]; auto. exfalso.
    specialize (Hu' d Hd). rewrite size_nth in Hu' by auto. specialize (Hv' d Hd). rewrite size_nth in Hv' by auto.
    destruct (Hin d Hd) as [_ Hk]. specialize (Hk (Z.to_nat (nth d u 0%Z)) ltac:(lia)).
    specialize (Hcl d ltac:(lia)). rewrite cell_lo_nth, cell_hi_nth in Hcl by auto. lra.
Qed.

(** ** C11 *)
Lemma lex_lt_lex size t u : valid_index size t -> valid_index size u -> lex_lt t u -> (lex size t < lex size u)%Z.
Proof.
  intros Ht; revert u; induction Ht as [|s i size t Hi H IH]; intros u Hu (d & Hd & Hl & Hlt & Heq).
  - simpl in Hd. lia.
  - inversion Hu as [|s' j size' u' Hj Hu' E1 E2]; subst. simpl.
    assert (length t = length u') as Hl' by (simpl in Hl; lia).
    destruct d as [|d].
    + assert (t = u') as ->.
      { apply (list_eq_nth 0%Z); auto. intros k Hk. specialize (Heq (S k)). simpl in Heq. apply Heq. simpl; lia. }
      simpl in Hlt. lia.
    + assert (lex size t < lex size u')%Z.
      { apply IH; auto. exists d. simpl in *. repeat split; try lia. intros e He. apply (Heq (S e)). lia. }
      nia.
Qed.

Lemma nth_zeros {A} (l : list A) d : nth d (map (fun _ => 0%Z) l) 0%Z = 0%Z.
Proof. revert d; induction l as [|x l IH]; intros [|d]; simpl; auto. Qed.

Lemma set_nth_le sz : forall k v, (k < length sz)%nat -> (v <= nth k sz 0)%Z -> Forall2 Z.le (set_nth k v sz) sz.
Proof.
  assert (forall l, Forall2 Z.le l l) as Hr by (induction l; constructor; auto; lia).
  induction sz as [|x sz IH]; intros [|k] v Hk Hv; simpl in *; try lia; constructor; auto; try lia.
  apply IH; auto; lia.
Qed.

Lemma cast_int_id z : (0 <= z <= INT_MAX)%Z -> cast_int z = z.
Proof. unfold cast_int, INT_MAX. intros H. rewrite Z.mod_small; lia. Qed.

Lemma sorted_map {A B} (R1 : A -> A -> Prop) (R2 : B -> B -> Prop) (f : A -> B) l :
  StronglySorted R1 l -> (forall x y, In x l -> In y l -> R1 x y -> R2 (f x) (f y)) -> StronglySorted R2 (map f l).
Proof.
  induction 1 as [|x l Hs IH Hx]; intros Hf; simpl; constructor.
  - apply IH. intros; apply Hf; auto; right; auto.
  - apply Forall_forall. intros y Hy. apply in_map_iff in Hy as (z & <- & Hz).
    apply Hf; [left; auto|right; auto|]. rewrite Forall_forall in Hx. auto.
Qed.

Lemma range_size_le lo hi hi' : Forall2 Z.lt lo hi -> Forall2 Z.le hi hi' -> Forall (fun x => 0 <= x)%Z lo ->
  (size_prod (vsub hi lo) <= size_prod hi')%Z.
Proof.
  intros H; revert hi'; induction H as [|l h lo hi Hl H IH]; intros hi' H2 H3; inversion H2; inversion H3; subst; cbn [vsub size_prod]; [lia|].
  match goal with Hr : Forall2 Z.le hi ?h' , Hz : Forall _ lo |- _ => specialize (IH h' Hr Hz) end.
  assert (0 < size_prod (vsub hi lo))%Z by (apply (range_size_pos (mk_range lo hi)); exact H). nia.
Qed.

Lemma C11_lemma : forall brks g facet fuel, brks <> [] -> make_grid brks = Ret g -> (num_cells g <= INT_MAX)%Z ->
  (0 <= facet < 2 * Z.of_nat (length brks))%Z -> (Z.to_nat (num_cells g) <= fuel)%nat ->
  (exists l, get_boundary_cells fuel g facet = Ret l /\ StronglySorted Z.lt l /\
     forall id, In id l <-> (0 <= id < num_cells g)%Z /\ on_boundary g id facet = Ret true) /\
  (forall id, (0 <= id < num_cells g)%Z ->
     exists b lo hi, on_boundary g id facet = Ret b /\ get_cell_domain g id = Ret (mk_box lo hi) /\
       (b = true <-> if (facet mod 2 =? 0)%Z
                     then nth (Z.to_nat (facet / 2)) lo 0 = nth (Z.to_nat (facet / 2)) (bmin (gdomain g)) 0
                     else nth (Z.to_nat (facet / 2)) hi 0 = nth (Z.to_nat (facet / 2)) (bmax (gdomain g)) 0)).
Proof.
  intros brks g facet fuel Hne Hmk. destruct (make_grid_facts _ _ Hne Hmk) as [Hg Eb].
  unfold num_cells. rewrite size_prod_cells. intros Hc Hf Hfuel. rewrite <- Eb in Hf.
  set (dir := Z.to_nat (facet / 2)).
  assert (dir < length (breaks g))%nat as Hdir.
  { unfold dir. assert (facet / 2 < Z.of_nat (length (breaks g)))%Z by (apply Z.div_lt_upper_bound; lia).
    assert (0 <= facet / 2)%Z by (apply Z.div_pos; lia). lia. }
  set (c := (if (facet mod 2 =? 0)%Z then 0 else nth dir (num_cells_dir g) 0 - 1)%Z).
  assert (forall t, valid_index (num_cells_dir g) t -> on_boundary g (lex (num_cells_dir g) t) facet = Ret (nth dir t 0 =? c)%Z) as Hon.
  { intros t Hv. unfold on_boundary. rewrite assert_true by lia. rewrite to_tensor_lex by auto. reflexivity. }
  pose proof (size_nth g Hg dir Hdir) as Hsd. pose proof (gf_good g Hg dir Hdir) as Hgd.
  split.
  - set (sz := num_cells_dir g) in *.
    set (tid_0 := set_nth dir c (map (fun _ => 0%Z) sz)). set (tid_1 := set_nth dir (c + 1)%Z sz).
    assert (get_boundary_cells fuel g facet =
      (tids <- iterate fuel (mk_range tid_0 tid_1) ;; mapM (fun t => f <- to_flat t sz ;; Ret (cast_int f)) tids)) as ->.
    { unfold get_boundary_cells. rewrite assert_true by lia. fold dir. fold sz.
      unfold tid_0, tid_1, c. destruct (facet mod 2 =? 0)%Z; [reflexivity|].
      replace (nth dir sz 0 - 1 + 1)%Z with (nth dir sz 0%Z) by lia. reflexivity. }
    pose proof (size_length g Hg) as Hlen. fold sz in Hlen.
    assert (0 <= c < nth dir sz 0)%Z as Hcb.
    { destruct Hgd. unfold c. destruct (facet mod 2 =? 0)%Z; lia. }
    pose proof (size_pos g Hg) as Hpos. fold sz in Hpos.
    assert (forall t, in_box tid_0 tid_1 t <-> valid_index sz t /\ nth dir t 0%Z = c) as Hbox.
    { intros t. unfold in_box, tid_0, tid_1. rewrite !set_nth_length, map_length.
      pose proof (valid_nth g Hg t) as Hvt. fold sz in Hvt. rewrite Hvt. clear Hvt.
      split.
      - intros (L1 & L2 & H). split; [split; [lia|]|].
        + intros d Hd. specialize (H d ltac:(lia)). rewrite !set_nth_nth in H by (rewrite ?map_length; lia).
          destruct (Nat.eqb_spec d dir) as [Ed|_]; [rewrite ?Ed in *; lia|].
          rewrite nth_zeros in H. lia.
        + specialize (H dir ltac:(lia)). rewrite !set_nth_nth in H by (rewrite ?map_length; lia).
          rewrite Nat.eqb_refl in H. lia.
      - intros ((L & H) & E). split; [lia|]. split; [lia|]. intros d Hd.
        specialize (H d ltac:(lia)). rewrite !set_nth_nth by (rewrite ?map_length; lia).
        destruct (Nat.eqb_spec d dir) as [Ed|_]; [rewrite ?Ed in *; lia|].
        rewrite nth_zeros. lia. }
    assert (Forall2 Z.lt tid_0 tid_1) as Hlt.
    { apply forall2_nth; unfold tid_0, tid_1; rewrite !set_nth_length, map_length; auto.
      intros d Hd. rewrite !set_nth_nth by (rewrite ?map_length; lia). destruct (Nat.eqb_spec d dir) as [Ed|_]; [rewrite ?Ed in *; lia|].
      rewrite nth_zeros.
      rewrite Forall_forall in Hpos. apply Hpos, nth_In; auto. }
    destruct (C03_lemma (mk_range tid_0 tid_1) fuel) as (tids & Hit & Hin & Hso & Hln).
    + unfold tid_0; simpl. intros E. apply (f_equal (@length Z)) in E. rewrite set_nth_length, map_length in E. simpl in E. lia.
    + exact Hlt.
    + unfold range_size, range_sizes; cbn [upper lower].
      assert (size_prod (vsub tid_1 tid_0) <= size_prod sz)%Z as Hle; [|rewrite (size_prod_cells sz) in Hle; apply Nat.le_trans with (2 := Hfuel); lia].
      apply range_size_le; auto.
      * apply set_nth_le; lia.
      * unfold tid_0. apply Forall_forall. intros x Hx. apply (In_nth _ _ 0%Z) in Hx as (k & Hk & <-).
        rewrite set_nth_length, map_length in Hk. rewrite set_nth_nth by (rewrite map_length; lia).
        destruct (Nat.eqb k dir); [lia|]. 
        rewrite nth_zeros. lia.
    + rewrite Hit. cbn [bind lower upper] in *.
      pose proof int_max_64 as H64.
      rewrite (mapM_ok _ (lex sz)).
      2:{ intros t Ht. apply Hin, Hbox in Ht as [Hv _]. rewrite to_flat_ok by (auto; lia). cbn [bind].
          rewrite cast_int_id; auto. pose proof (lex_bounds _ _ Hv). lia. }
      exists (map (lex sz) tids). split; [auto|]. split.
      * apply (sorted_map lex_lt); auto. intros x y Hx Hy. apply Hin, Hbox in Hx as [Hx _]. apply Hin, Hbox in Hy as [Hy _].
        now apply lex_lt_lex.
      * intros id. rewrite in_map_iff. split.
        -- intros (t & <- & Ht). apply Hin, Hbox in Ht as [Hv E]. split; [now apply lex_bounds|].
           rewrite Hon by auto. f_equal. lia.
        -- intros [Hid Hb]. destruct (valid_exists g Hg Hc id Hid) as (t & Hv & <-). exists t. split; auto.
           apply Hin, Hbox. split; auto. rewrite Hon in Hb by auto. injection Hb as Hb. lia.
  - intros id Hid. destruct (valid_exists g Hg Hc id Hid) as (t & Hv & <-).
    eexists _, _, _. split; [now apply Hon|]. split; [now apply cell_domain_ok|].
    pose proof Hv as Hv'. apply (valid_nth g Hg) in Hv' as [Hl Hv']. specialize (Hv' dir Hdir).
    rewrite cell_lo_nth, cell_hi_nth, (min_nth g Hg), (max_nth g Hg) by auto.
    rewrite Hsd in Hv'. destruct Hgd as [Hg1 Hg2]. unfold c. destruct (facet mod 2 =? 0)%Z.
    + rewrite Z.eqb_eq. split; [now intros ->|]. intros E.
      destruct (Z.eq_dec (nth dir t 0) 0)%Z as [|C]; auto. exfalso.
      specialize (Hg2 O (Z.to_nat (nth dir t 0%Z)) ltac:(lia)). lra.
    + rewrite Z.eqb_eq, Hsd. split.
      * intros ->. f_equal. lia.
      * intros E. destruct (Z.eq_dec (nth dir t 0) (Z.of_nat (length (nth dir (breaks g) [])) - 1 - 1))%Z as [|C]; auto. exfalso.
        specialize (Hg2 (S (Z.to_nat (nth dir t 0%Z))) (length (nth dir (breaks g) []) - 1)%nat ltac:(lia)). lra.
Qed.

(** ** C12 *)

Lemma equispaced_length x0 len n : length (equispaced_dir x0 len n) = S n.
Proof. unfold equispaced_dir. now rewrite map_length, seq_length. Qed.
Lemma equispaced_nth x0 len n i : (i <= n)%nat -> nth i (equispaced_dir x0 len n) 0 = x0 + len / INR n * INR i.
Proof.
  intros Hi. unfold equispaced_dir.
  rewrite (nth_indep _ 0 ((fun i => x0 + len / INR n * INR i) O)) by (rewrite map_length, seq_length; lia).
  rewrite (map_nth (fun i => x0 + len / INR n * INR i)). now rewrite seq_nth by lia.
Qed.

Lemma C12_lemma : forall dom ns, ns <> [] -> positive_box (bmin dom) (bmax dom) -> length ns = length (bmin dom) ->
  (forall d, (d < length ns)%nat -> (1 <= nth d ns 0)%nat) ->
  exists g, make_equispaced_grid dom ns = Ret g /\ length (breaks g) = length ns /\
    gdomain g = dom /\
    forall d, (d < length ns)%nat -> let b := nth d (breaks g) [] in let n := nth d ns O in
      length b = S n /\ nth 0 b 0 = nth d (bmin dom) 0 /\ nth n b 0 = nth d (bmax dom) 0 /\
      forall i, (i < n)%nat -> nth (S i) b 0 - nth i b 0 = (nth d (bmax dom) 0 - nth d (bmin dom) 0) / INR n /\
         nth i b 0 < nth (S i) b 0.
Proof.
  intros [lo hi] ns Hne [Hl Hpos] Hlen Hn. cbn [bmin bmax] in *.
  set (B := map3 equispaced_dir lo (map2 Rminus hi lo) ns).
  assert (length (map2 Rminus hi lo) = length lo) as L1 by (rewrite map2_length; lia).
  assert (length B = length ns) as LB by (unfold B; rewrite map3_length; lia).
  assert (forall d, (d < length ns)%nat -> nth d B [] = equispaced_dir (nth d lo 0) (nth d hi 0 - nth d lo 0) (nth d ns O)) as HB.
  { intros d Hd. unfold B. rewrite (map3_nth _ 0 0 O) by lia. f_equal. now rewrite (map2_nth _ 0 0) by lia. }
  assert (forall d, (d < length ns)%nat -> let n := nth d ns O in 0 < (nth d hi 0 - nth d lo 0) / INR n /\ 0 < INR n) as Hdx.
  { intros d Hd. cbv zeta. specialize (Hn d Hd). assert (0 < INR (nth d ns O)) by (apply lt_0_INR; lia). split; auto.
    apply Rdiv_lt_0_compat; auto. specialize (Hpos d ltac:(lia)). lra. }
  assert (forall d, (d < length B)%nat -> good (nth d B [])) as Hgood.
  { intros d Hd. rewrite LB in Hd. rewrite HB by auto. split; rewrite equispaced_length; [specialize (Hn d Hd); lia|].
    intros i j Hij. rewrite !equispaced_nth by lia. destruct (Hdx d Hd) as [Hx _].
    apply Rplus_lt_compat_l. apply Rmult_lt_compat_l; auto. apply lt_INR. lia. }
  assert (B <> []) as HBne.
  { intros E. rewrite E in LB. destruct ns; [congruence|simpl in LB; lia]. }
  destruct (make_grid_ok B Hgood) as [g Hmk]. destruct (make_grid_facts _ _ HBne Hmk) as [Hg Eb].
  exists g. split.
  { unfold make_equispaced_grid, create_equispaced_breaks. rewrite assert_true; [exact Hmk|].
    apply forallb_forall. intros n Hin. apply (In_nth _ _ O) in Hin as (d & Hd & <-). specialize (Hn d Hd). lia. }
  rewrite Eb. split; [auto|].
  assert (forall d, (d < length ns)%nat -> let b := nth d B [] in let n := nth d ns O in
      length b = S n /\ nth 0 b 0 = nth d lo 0 /\ nth n b 0 = nth d hi 0) as Hends.
  { intros d Hd. cbv zeta. rewrite HB by auto. rewrite equispaced_length. split; [auto|].
    rewrite !equispaced_nth by lia. destruct (Hdx d Hd) as [_ Hx]. simpl INR. split; [lra|]. field. lra. }
  split.
  - destruct g as [gb [gm gx] gr]. pose proof (gf_min _ Hg) as E1. pose proof (gf_max _ Hg) as E2. simpl in *. subst gb. f_equal.
    + rewrite E1. apply (list_eq_nth 0); rewrite map_length; [lia|]. intros d Hd.
      rewrite (nth_indep _ 0 ((fun b => nth 0 b 0) [])) by now rewrite map_length.
      rewrite (map_nth (fun b => nth 0 b 0)). apply Hends. lia.
    + rewrite E2. apply (list_eq_nth 0); rewrite map_length; [lia|]. intros d Hd.
      rewrite (nth_indep _ 0 ((fun b => nth (length b - 1) b 0) [])) by now rewrite map_length.
      rewrite (map_nth (fun b => nth (length b - 1) b 0)). destruct (Hends d) as (E3 & _ & E4); [lia|].
      rewrite E3. replace (S (nth d ns 0%nat) - 1)%nat with (nth d ns O) by lia. exact E4.
  - intros d Hd. cbv zeta. destruct (Hends d Hd) as (E1 & E2 & E3). split; [auto|]. split; [auto|]. split; [auto|].
    intros i Hi. rewrite HB by auto. destruct (Hdx d Hd) as [Hx Hx2]. rewrite !equispaced_nth by lia. rewrite S_INR.
    split; [field; lra|lra].
Qed.

(** A concrete grid: 2x1 cells on [0,2]x[0,1]. *)
Definition demo_breaks : list (list R) := [[0;1;2];[0;1]].
Lemma demo_good : forall d, (d < length demo_breaks)%nat -> good (nth d demo_breaks []).
Proof.
  intros [|[|d]] Hd; simpl in *; try lia; split; simpl; try lia.
  - intros [|[|[|i]]] [|[|[|j]]] Hij; simpl in *; try lia; lra.
  - intros [|[|[|i]]] [|[|[|j]]] Hij; simpl in *; try lia; lra.
Qed.
Lemma demo_grid_ex : exists g, make_grid demo_breaks = Ret g /\ num_cells g = 2%Z /\
  bmin (gdomain g) = [0;0] /\ bmax (gdomain g) = [2;1] /\
  get_cell_domain g 0 = Ret (mk_box [0;0] [1;1]) /\ get_cell_domain g 1 = Ret (mk_box [1;0] [2;1]).
Proof.
  destruct (make_grid_ok _ demo_good) as [g Hmk]. exists g. split; [auto|].
  destruct (make_grid_facts demo_breaks g ltac:(discriminate) Hmk) as [Hg Eb].
  assert (num_cells_dir g = [2;1]%Z) as En by (rewrite (gf_size g Hg), Eb; reflexivity).
  split; [unfold num_cells; rewrite En; reflexivity|].
  split; [rewrite (gf_min g Hg), Eb; reflexivity|]. split; [rewrite (gf_max g Hg), Eb; reflexivity|].
  assert (cells (num_cells_dir g) <= INT_MAX)%Z as Hc by (rewrite En; vm_compute; congruence).
  pose proof (cell_domain_ok g Hg Hc [0;0]%Z) as H0. pose proof (cell_domain_ok g Hg Hc [1;0]%Z) as H1.
  rewrite En in H0, H1. unfold cell_lo, cell_hi in *. rewrite Eb in H0, H1.
  split; [apply H0|apply H1]; repeat constructor; lia.
Qed.

Lemma C10_refuted_lemma : exists brks g p f f' lo hi, brks <> [] /\ make_grid brks = Ret g /\
  in_closed (bmin (gdomain g)) (bmax (gdomain g)) p /\ get_cell_id g p 0 = Ret f /\
  (0 <= f' < f)%Z /\ get_cell_domain g f' = Ret (mk_box lo hi) /\ in_closed lo hi p.
Proof.
  destruct demo_grid_ex as (g & Hmk & Hn & Hmin & Hmax & H0 & H1).
  assert (in_closed (bmin (gdomain g)) (bmax (gdomain g)) [1; /2]) as Hp.
  { rewrite Hmin, Hmax. repeat split; auto; intros; destruct d as [|[|d]]; simpl in *; try lra; lia. }
  destruct (C10_lemma demo_breaks g [1; /2] ltac:(discriminate) Hmk ltac:(rewrite Hn; vm_compute; congruence) Hp) as (f & Hid & _ & Hhi).
  exists demo_breaks, g, [1; /2], f, 0%Z, [0;0], [1;1].
  split; [discriminate|]. split; [auto|]. split; [auto|]. split; [auto|].
  assert (1 <= f)%Z.
  { apply (Hhi 1%Z _ _ ltac:(lia) H1). repeat split; auto; intros; destruct d as [|[|d]]; simpl in *; try lra; lia. }
  split; [lia|]. split; [auto|]. repeat split; auto; intros; destruct d as [|[|d]]; simpl in *; try lra; lia.
Qed.
