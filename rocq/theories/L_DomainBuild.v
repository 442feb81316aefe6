From Verif Require Import M_Domain S_Domain S_Grid L_Real L_BBox L_Grid L_TensorIndex L_Domain.
From Coq Require Import Lra Sorting.Sorted Permutation.
Open Scope Z_scope.

Section Trees.
Context (g : grid) (Hg : grid_facts g).
Let n := length (breaks g).
Let sz := num_cells_dir g.
Hypothesis Hcells : cells sz <= INT_MAX.
Hypothesis Hdir : Forall (fun s => s <= 2 ^ 30) sz.
Notation okr := (okr g).

Fixpoint tree_ok (t : tree) : Prop :=
  match t with
  | Leaf r _ => okr r
  | Branch r l rr => okr r /\ tree_ok l /\ tree_ok rr /\
      (forall x, inr r x <-> inr (tree_range l) x \/ inr (tree_range rr) x) /\
      (forall x, ~ (inr (tree_range l) x /\ inr (tree_range rr) x)) /\
      range_size (tree_range l) + range_size (tree_range rr) = range_size r
  end.
Fixpoint status_at (t : tree) (x : list Z) (st : cstatus) : Prop :=
  match t with
  | Leaf r s => inr r x /\ s = st
  | Branch _ l rr => status_at l x st \/ status_at rr x st
  end.

Lemma tree_ok_okr t : tree_ok t -> okr (tree_range t).
Proof. destruct t; simpl; tauto. Qed.
Lemma status_at_inr t : tree_ok t -> forall x st, status_at t x st -> inr (tree_range t) x.
Proof.
  induction t as [r s|r l IHl rr IHr]; simpl; intros Ht x st H; [tauto|].
  destruct Ht as (_ & Hl & Hr & Hp & _). apply Hp. destruct H; [left|right]; eauto.
Qed.
Lemma status_at_fun t : tree_ok t -> forall x s1 s2, status_at t x s1 -> status_at t x s2 -> s1 = s2.
Proof.
  induction t as [r s|r l IHl rr IHr]; simpl; intros Ht x s1 s2 H1 H2; [intuition congruence|].
  destruct Ht as (_ & Hl & Hr & Hp & Hd & _).
  destruct H1 as [H1|H1], H2 as [H2|H2]; eauto; exfalso; apply (Hd x); split; eauto using status_at_inr.
Qed.
Lemma status_at_ex t : tree_ok t -> forall x, inr (tree_range t) x -> exists st, status_at t x st.
Proof.
  induction t as [r s|r l IHl rr IHr]; simpl; intros Ht x H; [eauto|].
  destruct Ht as (_ & Hl & Hr & Hp & Hd & _). apply Hp in H as [H|H].
  - destruct (IHl Hl x H); eauto.
  - destruct (IHr Hr x H); eauto.
Qed.

Lemma is_in_tree_ok t x : tree_ok t -> valid_index sz x ->
  is_in_tree g t (lex sz x) = Ret (in_range (tree_range t) x) /\ (in_range (tree_range t) x = true <-> inr (tree_range t) x).
Proof.
  intros Ht Hv. pose proof (tree_ok_okr _ Ht) as Ho. pose proof (okr_upper g _ Ho) as HU. destruct Ho as (Hne & HL & _).
  pose proof (sz_len g Hg) as Hs. split.
  - unfold is_in_tree. apply in_range_flat_ok; auto; unfold sz; lia.
  - pose proof (valid_index_length _ _ Hv) as Hlx. apply in_range_box; unfold sz in *; lia.
Qed.

Lemma find_leaf_ok t : tree_ok t -> forall x st, status_at t x st -> find_leaf g t (lex sz x) = Ret st.
Proof.
  induction t as [r s|r l IHl rr IHr]; intros Ht x st H.
  - pose proof (okr_valid g Hg _ _ Ht (proj1 H)) as Hv. destruct (is_in_tree_ok _ x Ht Hv) as [E1 E2].
    cbn [find_leaf]. rewrite E1. cbn [bind]. destruct H as [H ->]. rewrite assert_true by now apply E2. reflexivity.
  - pose proof (status_at_inr _ Ht _ _ H) as Hin. pose proof (okr_valid g Hg _ _ (tree_ok_okr _ Ht) Hin) as Hv.
    destruct (is_in_tree_ok _ x Ht Hv) as [E1 E2].
    cbn [find_leaf]. rewrite E1. cbn [bind]. rewrite assert_true by now apply E2.
    destruct Ht as (_ & Hl & Hr & Hp & Hd & _).
    destruct (is_in_tree_ok _ x Hl Hv) as [F1 F2]. rewrite F1. cbn [bind]. cbn [status_at] in H.
    destruct (in_range (tree_range l) x) eqn:E; destruct H as [H|H]; eauto.
    + exfalso. apply (Hd x). split; [now apply F2|]. eapply status_at_inr; eauto.
    + apply status_at_inr in H; auto. apply F2 in H. congruence.
Qed.

Lemma range_size_nonneg r : okr r -> 0 < range_size r.
Proof. intros (H & _). now apply range_size_pos. Qed.

Lemma leaf_ids_ok r : okr r -> exists l, leaf_ids g r = Ret l /\ NoDup l /\ Z.of_nat (length l) = range_size r /\
  forall id, In id l <-> exists x, inr r x /\ id = lex sz x.
Proof.
  intros Ho. pose proof Ho as (Hne & HL & Hb). unfold leaf_ids.
  destruct (C03_lemma r (Z.to_nat (range_size r))) as (ts & H1 & H2 & H3 & H4); auto.
  { intros E. rewrite E in HL. simpl in HL. apply (gf_ne g Hg). destruct (breaks g); auto; discriminate. }
  rewrite H1. cbn [bind]. pose proof int_max_64.
  rewrite (mapM_ok _ (lex sz)).
  2:{ intros x Hx. apply to_flat_ok; [|unfold sz in *; lia]. eapply okr_valid; eauto. apply H2; auto. }
  exists (map (lex sz) ts). split; [auto|]. split; [|split].
  - apply sorted_lt_nodup. apply (sorted_map lex_lt); auto. intros x y Hx Hy. apply lex_lt_lex; eapply okr_valid; eauto; now apply H2.
  - now rewrite map_length.
  - intros id. rewrite in_map_iff. split; intros (x & Hx & Hx').
    + exists x. split; auto. now apply H2.
    + exists x. split; auto. now apply H2.
Qed.

Lemma cells_ids_ok st t : tree_ok t -> exists l, concatM (leaf_ids g) (leaves st t) = Ret l /\ NoDup l /\
   Z.of_nat (length l) = tree_num_cells t st /\ forall id, In id l <-> exists x, status_at t x st /\ id = lex sz x.
Proof.
  assert (forall l1 l2, concatM (leaf_ids g) (l1 ++ l2) = (a <- concatM (leaf_ids g) l1 ;; b <- concatM (leaf_ids g) l2 ;; Ret (a ++ b))) as Happ.
  { induction l1 as [|r l1 IH]; intros l2; simpl.
    - destruct (concatM (leaf_ids g) l2); reflexivity.
    - destruct (leaf_ids g r); auto. cbn [bind]. rewrite IH. destruct (concatM (leaf_ids g) l1); auto. cbn [bind].
      destruct (concatM (leaf_ids g) l2); auto. cbn [bind]. now rewrite app_assoc. }
  induction t as [r s|r l IHl rr IHr]; intros Ht.
  - cbn [leaves tree_num_cells status_at]. destruct (cstatus_eqb s st) eqn:E.
    + destruct (leaf_ids_ok r Ht) as (l & H1 & H2 & H3 & H4). exists l. cbn [concatM]. rewrite H1. cbn [bind]. rewrite app_nil_r.
      split; auto. split; auto. split; auto. intros id. rewrite H4. assert (s = st) by (destruct s, st; simpl in E; congruence).
      split; intros (x & Hx & Hi); exists x; tauto.
    + exists []. split; auto. split; [constructor|]. split; auto. intros id. split; [intros []|].
      intros (x & (_ & E') & _). subst. destruct st; discriminate.
  - destruct Ht as (Ho & Hl & Hr & Hp & Hd & Hs).
    destruct (IHl Hl) as (a & A1 & A2 & A3 & A4). destruct (IHr Hr) as (b & B1 & B2 & B3 & B4).
    exists (a ++ b). cbn [leaves tree_num_cells status_at]. rewrite Happ, A1. cbn [bind]. rewrite B1. cbn [bind].
    split; auto. split; [|split].
    +
      assert (forall i, In i a -> ~ In i b) as Hdis.
      { intros i Hi Hj. apply A4 in Hi as (x & Hx & ->). apply B4 in Hj as (y & Hy & E).
        pose proof (status_at_inr _ Hl _ _ Hx) as Ix. pose proof (status_at_inr _ Hr _ _ Hy) as Iy.
        assert (x = y) as -> by (apply (lex_inj sz); [exact (okr_valid g Hg _ _ (tree_ok_okr _ Hl) Ix)|exact (okr_valid g Hg _ _ (tree_ok_okr _ Hr) Iy)|exact E]). apply (Hd y); auto. }
      clear -A2 B2 Hdis. induction a as [|i a IH]; simpl; auto. inversion A2; subst. constructor.
      * rewrite in_app_iff. intros [?|?]; [contradiction|]. apply (Hdis i); simpl; auto.
      * apply IH; auto. intros j Hj. apply Hdis. simpl; auto.
    + rewrite app_length. lia.
    + intros id. rewrite in_app_iff, A4, B4. split.
      * intros [(x & Hx & E)|(x & Hx & E)]; exists x; auto.
      * intros (x & [Hx|Hx] & E); [left|right]; exists x; auto.
Qed.

Lemma tree_cell_ids_ok st t : tree_ok t -> exists l, tree_cell_ids g t st = Ret l /\ StronglySorted Z.lt l /\
   Z.of_nat (length l) = tree_num_cells t st /\ forall id, In id l <-> exists x, status_at t x st /\ id = lex sz x.
Proof.
  intros Ht. destruct (cells_ids_ok st t Ht) as (l & H1 & H2 & H3 & H4). exists (zsort l). unfold tree_cell_ids. rewrite H1. cbn [bind].
  split; auto. split; [now apply zsort_lt|]. split; [now rewrite zsort_length|]. intros id. rewrite zsort_in. apply H4.
Qed.

Lemma tree_total t : tree_ok t -> (forall x, ~ status_at t x Cunknown) ->
  tree_num_cells t Cfull + tree_num_cells t Cempty + tree_num_cells t Ccut = range_size (tree_range t).
Proof.
  induction t as [r s|r l IHl rr IHr]; intros Ht Hu.
  - cbn. destruct s; cbn; try lia. exfalso. apply (Hu (lower r)). split; auto. apply in_box_lower. apply Ht.
  - destruct Ht as (Ho & Hl & Hr & Hp & Hd & Hs). cbn [tree_num_cells tree_range].
    specialize (IHl Hl). specialize (IHr Hr).
    assert (forall x, ~ status_at l x Cunknown) as U1 by (intros x Hx; apply (Hu x); simpl; auto).
    assert (forall x, ~ status_at rr x Cunknown) as U2 by (intros x Hx; apply (Hu x); simpl; auto).
    specialize (IHl U1). specialize (IHr U2). lia.
Qed.

(** ** Construction, no target cells *)
Context (sign : nat -> bbox -> fsign) (ccell : bbox -> tmpstatus) (cfacet : range -> nat -> tmpstatus -> fstatus).
Notation cdec := (create_decomposition g sign ccell cfacet None).
Notation cres := (cell_result g sign ccell cfacet).

Definition facets_of (x : list Z) (c : tmpstatus) : list fstatus :=
  map (fun f => cfacet (mk_range x (map (Z.add 1) x)) f c) (seq 0 (2 * n)).

(** Entries of the map for the cells of a range. *)
Definition cell_ok (cl : list Z) (m : fmap) (x : list Z) (st : cstatus) : Prop :=
  exists h entry, cres (lex sz x) h st entry /\ (h = by_cell <-> In (lex sz x) cl) /\
    match entry with Some v => In (lex sz x, v) m | None => ~ In (lex sz x) (map fst m) end.

Definition post (r : range) (s : cstate) (t : tree) (s' : cstate) : Prop :=
  tree_range t = r /\ tree_ok t /\
  (Z.of_nat (cs_signs s) + 1 <= Z.of_nat (cs_signs s') <= Z.of_nat (cs_signs s) + 2 * range_size r - 1) /\
  exists cl m, cs_classified s' = cs_classified s ++ cl /\ cs_fm s' = cs_fm s ++ m /\
    NoDup cl /\ Z.of_nat (length cl) <= range_size r /\
    (forall id, In id cl -> exists x, inr r x /\ id = lex sz x) /\
    NoDup (map fst m) /\ (forall id, In id (map fst m) -> exists x, inr r x /\ id = lex sz x) /\
    (forall x, inr r x -> exists st, status_at t x st /\ cell_ok cl m x st).

Lemma lex_inr_inj r r' x y : okr r -> okr r' -> inr r x -> inr r' y -> lex sz x = lex sz y -> x = y.
Proof. intros H1 H2 H3 H4 E. apply (lex_inj sz); [exact (okr_valid g Hg _ _ H1 H3)|exact (okr_valid g Hg _ _ H2 H4)|exact E]. Qed.

Lemma cell_ok_app_l cl m cl' m' x st : cell_ok cl m x st ->
  ~ In (lex sz x) cl' -> ~ In (lex sz x) (map fst m') -> cell_ok (cl ++ cl') (m ++ m') x st.
Proof.
  intros (h & e & Hc & Hh & He) H1 H2. exists h, e. split; auto. split.
  - rewrite in_app_iff. tauto.
  - destruct e; [rewrite in_app_iff; auto|]. rewrite map_app, in_app_iff. tauto.
Qed.
Lemma cell_ok_app_r cl m cl' m' x st : cell_ok cl' m' x st ->
  ~ In (lex sz x) cl -> ~ In (lex sz x) (map fst m) -> cell_ok (cl ++ cl') (m ++ m') x st.
Proof.
  intros (h & e & Hc & Hh & He) H1 H2. exists h, e. split; auto. split.
  - rewrite in_app_iff. tauto.
  - destruct e; [rewrite in_app_iff; auto|]. rewrite map_app, in_app_iff. tauto.
Qed.

Lemma NoDup_app_own {A} (a b : list A) : NoDup a -> NoDup b -> (forall i, In i a -> ~ In i b) -> NoDup (a ++ b).
Proof.
  intros A2 B2 Hdis. induction a as [|i a IH]; simpl; auto. inversion A2; subst. constructor.
  - rewrite in_app_iff. intros [?|?]; [contradiction|]. apply (Hdis i); simpl; auto.
  - apply IH; auto. intros j Hj. apply Hdis. simpl; auto.
Qed.

(** All the cells of a range decided by one sign test. *)
Lemma by_sign_ok r k sg st : okr r -> sign k (ext (rlo g r) (rhi g r)) = sg ->
  (sg = Sneg /\ st = Cfull \/ sg = Spos /\ st = Cempty) ->
  forall x, inr r x -> cell_ok [] [] x st.
Proof.
  intros Ho Hs Hst x Hx. pose proof (okr_valid g Hg _ _ Ho Hx) as Hv. exists by_sign, None.
  split; [|split; [split; [discriminate|intros []]|intros []]].
  destruct Hst as [[-> ->]|[-> ->]]; [eapply cr_neg|eapply cr_pos]; try apply (cell_domain_ok g Hg Hcells x Hv);
    try (apply ext_contains; eauto); exact Hs.
Qed.

Lemma create_ok : forall fuel r s, okr r -> (Z.to_nat (range_size r) <= fuel)%nat ->
  (forall x, inr r x -> ~ In (lex sz x) (map fst (cs_fm s))) ->
  exists t s', cdec fuel (Leaf r Cunknown) s = Ret (t, s') /\ post r s t s'.
Proof.
  induction fuel as [|fuel IH]; intros r s Ho Hf Hfresh.
  { pose proof (range_size_nonneg r Ho). lia. }
  cbn [create_decomposition tree_range intersect bind]. cbn [negb].
  rewrite (sub_domain_ok g Hg) by auto. cbn [bind].
  rewrite (extend_ok g Hg) by auto. cbn [bind].
  pose proof (range_size_nonneg r Ho) as Hpos.
  destruct (sign (cs_signs s) (ext (rlo g r) (rhi g r))) eqn:Es.
  1,2: unfold insert_cells; rewrite assert_true by auto; cbn [set_status bind];
       eexists _, _; (split; [reflexivity|]);
       (split; [reflexivity|]); (split; [exact Ho|]); cbn [cs_signs cs_classified cs_fm];
       (split; [lia|]); exists [], []; rewrite !app_nil_r; do 2 (split; [reflexivity|]);
       (split; [constructor|]); (split; [simpl; lia|]); (split; [intros ? []|]); (split; [constructor|]); (split; [intros ? []|]);
       intros x Hx; eexists; (split; [split; [exact Hx|reflexivity]|]); eapply by_sign_ok; eauto.
  destruct (sub_is_unique r) eqn:Eu.
  - (* one cell *)
    unfold sub_is_unique in Eu. assert (range_size r = 1) as E1 by lia.
    destruct (unique_range g r Ho E1) as (Er & Hin & Elo & Ehi).
    set (x := lower r) in *. assert (inr r x) as Hx by now apply Hin.
    pose proof (okr_valid g Hg _ _ Ho Hx) as Hv. pose proof (lex_bounds _ _ Hv) as Hlb. pose proof int_max_64.
    unfold classify_undetermined. cbn [tree_range]. rewrite assert_true by (unfold sub_is_unique; lia).
    rewrite (sub_domain_ok g Hg) by auto. cbn [bind].
    unfold sub_single_cell. rewrite assert_true by (unfold sub_is_unique; lia).
    unfold sub_to_flat. fold x. rewrite assert_true.
    2:{ apply in_range_box; auto; [apply (okr_upper g r) in Ho as HU; destruct Ho as (_ & HL & _); unfold x; lia]. }
    rewrite to_flat_ok by (auto; unfold sz in *; lia). cbn [bind]. rewrite Elo, Ehi in *.
    set (c := ccell (mk_box (cell_lo g x) (cell_hi g x))) in *.
    assert (map (fun f => cfacet r f c) (seq 0 (n_facets g)) = facets_of x c) as Ef.
    { unfold facets_of, n_facets. fold n. rewrite <- Er. reflexivity. }
    rewrite Ef. cbn [cs_fm cs_signs cs_classified].
    assert (forall st entry, individually c (facets_of x c) st entry -> cres (lex sz x) by_cell st entry) as Hres.
    { intros st entry Hi. apply (cr_cell g sign ccell cfacet (lex sz x) (cs_signs s) (cell_lo g x) (cell_hi g x) x st entry).
      - apply cell_domain_ok; auto.
      - exact Es.
      - apply to_tensor_lex; auto.
      - exact Hi. }
    assert (forall st entry s', individually c (facets_of x c) st entry ->
       s' = mk_cstate (match entry with Some v => cs_fm s ++ [(lex sz x, v)] | None => cs_fm s end) (S (cs_signs s)) (cs_classified s ++ [lex sz x]) ->
       post r s (Leaf r st) s') as Hpost.
    { intros st entry s' Hi ->. split; [reflexivity|]. split; [exact Ho|]. cbn [cs_signs cs_classified cs_fm]. split; [lia|].
      exists [lex sz x], (match entry with Some v => [(lex sz x, v)] | None => [] end).
      split; [auto|]. split; [destruct entry; auto; now rewrite app_nil_r|].
      split; [repeat constructor; intros []|]. split; [simpl; lia|].
      split; [intros id [<-|[]]; exists x; auto|].
      split; [destruct entry; repeat constructor; intros []|].
      split; [destruct entry; simpl; [intros id [<-|[]]; exists x; auto|intros ? []]|].
      intros y Hy. apply Hin in Hy. subst y. exists st. split; [split; auto|].
      exists by_cell, entry. split; [auto|]. split; [split; simpl; auto|]. destruct entry; simpl; auto. }
    assert (~ In (lex sz x) (map fst (cs_fm s))) as Hnew by auto.
    assert (forall v, fm_emplace (lex sz x) v (cs_fm s) = cs_fm s ++ [(lex sz x, v)]) as Hemp.
    { intros v. unfold fm_emplace. rewrite (proj2 (fm_contains_false _ _) Hnew). reflexivity. }
    destruct c eqn:Ec; cbn [andb transform_status set_status bind]; rewrite ?Hemp.
    + (* cut *)
      rewrite assert_true by (unfold sub_is_unique; lia). cbn [bind]. eexists _, _. split; [reflexivity|].
      apply (Hpost Ccut (Some (facets_of x Tcut))); [split; reflexivity|reflexivity].
    + eexists _, _. split; [reflexivity|]. apply (Hpost Cfull None); [split; reflexivity|reflexivity].
    + eexists _, _. split; [reflexivity|]. apply (Hpost Cempty None); [split; reflexivity|reflexivity].
    + destruct (forallb is_Ffull (facets_of x Tfull_unf)) eqn:Eall; cbn [bind]; eexists _, _; (split; [reflexivity|]).
      * apply (Hpost Cfull None); [|reflexivity]. split; [reflexivity|]. simpl. now rewrite Eall.
      * apply (Hpost Cfull (Some (facets_of x Tfull_unf))); [|reflexivity]. split; [reflexivity|]. simpl. now rewrite Eall.
  - (* branch *)
    unfold branch. rewrite Eu. cbn [negb]. rewrite assert_true by auto.
    unfold sub_is_unique in Eu.
    destruct (okr_split g Hg Hdir r Ho ltac:(lia)) as (a & b & Hsp & Ha & Hb & Hpart & Hdis & Hsz & Pa & Pb).
    rewrite Hsp. cbn [bind fst snd].
    set (s1 := mk_cstate (cs_fm s) (S (cs_signs s)) (cs_classified s)).
    destruct (IH a s1 Ha) as (ta & sa & Ea & (Ra & Ta & Sa & cla & ma & Ca & Ma & NDa & La & Ina & NDma & Inma & Stata)).
    { lia. } { intros x Hx. apply Hfresh. apply Hpart. auto. }
    cbn [s1 cs_fm cs_signs cs_classified] in *.
    destruct (IH b sa Hb) as (tb & sb & Eb & (Rb & Tb & Sb & clb & mb & Cb & Mb & NDb & Lb & Inb & NDmb & Inmb & Statb)).
    { lia. }
    { intros x Hx. rewrite Ma, map_app, in_app_iff. intros [Hin|Hin].
      - revert Hin. apply Hfresh. apply Hpart. auto.
      - apply Inma in Hin as (y & Hy & E). assert (x = y) by (eapply (lex_inr_inj b a); eauto). subst. apply (Hdis y); auto. }
    rewrite Ea. cbn [bind fst snd]. rewrite Eb. cbn [bind fst snd]. eexists _, _. split; [reflexivity|].
    split; [reflexivity|]. split.
    { cbn [tree_ok]. rewrite Ra, Rb. auto 10. }
    split; [lia|].
    exists (cla ++ clb), (ma ++ mb). rewrite Cb, Ca, Mb, Ma, !app_assoc. split; [auto|]. split; [auto|].
    assert (forall x y, inr a x -> inr b y -> lex sz x <> lex sz y) as Hsep.
    { intros x y Hx Hy E. assert (x = y) by (eapply (lex_inr_inj a b); eauto). subst. apply (Hdis y); auto. }
    split. { apply NoDup_app_own; auto. intros i Hi Hj. apply Ina in Hi as (x & Hx & ->). apply Inb in Hj as (y & Hy & E). eapply Hsep; eauto. }
    split. { rewrite app_length. lia. }
    split. { intros id. rewrite in_app_iff. intros [Hi|Hi]; [apply Ina in Hi as (x & Hx & ->)|apply Inb in Hi as (x & Hx & ->)]; exists x; split; auto; apply Hpart; auto. }
    split. { rewrite map_app. apply NoDup_app_own; auto. intros i Hi Hj. apply Inma in Hi as (x & Hx & ->). apply Inmb in Hj as (y & Hy & E). eapply Hsep; eauto. }
    split. { intros id. rewrite map_app, in_app_iff. intros [Hi|Hi]; [apply Inma in Hi as (x & Hx & ->)|apply Inmb in Hi as (x & Hx & ->)]; exists x; split; auto; apply Hpart; auto. }
    intros x Hx. apply Hpart in Hx as [Hx|Hx].
    + destruct (Stata x Hx) as (st & Hst & Hc). exists st. split; [simpl; auto|]. apply cell_ok_app_l; auto.
      * intros Hi. apply Inb in Hi as (y & Hy & E). eapply Hsep; eauto.
      * intros Hi. apply Inmb in Hi as (y & Hy & E). eapply Hsep; eauto.
    + destruct (Statb x Hx) as (st & Hst & Hc). exists st. split; [simpl; auto|]. apply cell_ok_app_r; auto.
      * intros Hi. apply Ina in Hi as (y & Hy & E). eapply Hsep; eauto.
      * intros Hi. apply Inma in Hi as (y & Hy & E). eapply Hsep; eauto.
Qed.

Lemma build_ok : exists t s, build g sign ccell cfacet None = Ret (t, s) /\ tree_ok t /\
  range_size (tree_range t) = cells sz /\ (forall x, inr (tree_range t) x <-> valid_index sz x) /\
  1 <= Z.of_nat (cs_signs s) <= 2 * cells sz - 1 /\
  NoDup (cs_classified s) /\ Z.of_nat (length (cs_classified s)) <= cells sz /\
  (forall id, In id (cs_classified s) -> 0 <= id < cells sz) /\
  NoDup (map fst (cs_fm s)) /\ (forall id, In id (map fst (cs_fm s)) -> 0 <= id < cells sz) /\
  forall x, valid_index sz x -> exists st, status_at t x st /\ cell_ok (cs_classified s) (cs_fm s) x st.
Proof.
  destruct (okr_full g Hg) as (r & Hr & Ho & Hs & Hin). unfold build. rewrite Hr. cbn [bind].
  destruct (create_ok (Z.to_nat (range_size r)) r (mk_cstate [] 0 []) Ho (le_n _)) as (t & s & E & (R & T & S & cl & m & C & M & ND & L & In1 & NDm & Inm & Hst)).
  { intros x _ []. }
  cbn [cs_classified cs_fm cs_signs app] in *. subst m cl. exists t, s. rewrite E. split; [auto|]. split; [auto|]. rewrite R.
  fold sz in Hs, Hin. split; [auto|]. split; [auto|]. rewrite Hs in *. split; [lia|]. split; [auto|]. split; [auto|].
  split; [intros id Hi; apply In1 in Hi as (x & Hx & ->); apply lex_bounds, Hin; auto|].
  split; [auto|]. split; [intros id Hi; apply Inm in Hi as (x & Hx & ->); apply lex_bounds, Hin; auto|].
  intros x Hx. apply Hst. now apply Hin.
Qed.
End Trees.
