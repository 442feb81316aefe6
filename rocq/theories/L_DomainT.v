From Verif Require Import M_Domain S_Domain S_Grid L_Real L_BBox L_Grid L_TensorIndex L_Domain L_DomainBuild L_DomainQ.
From Coq Require Import Lra Sorting.Sorted Permutation.
Open Scope Z_scope.

Section Target.
Context (g : grid) (Hg : grid_facts g).
Let sz := num_cells_dir g.
Hypothesis Hcells : cells sz <= INT_MAX.
Hypothesis Hdir : Forall (fun s => s <= 2 ^ 30) sz.
Context (sign : nat -> bbox -> fsign) (ccell : bbox -> tmpstatus) (cfacet : range -> nat -> tmpstatus -> fstatus).
Context (T : list Z) (HT : Forall (fun id => 0 <= id < cells sz) T).
Notation cdec := (create_decomposition g sign ccell cfacet (Some T)).
Notation cres := (cell_result g sign ccell cfacet).
Notation okr := (okr g).

Lemma anyM_ok {A} (f : A -> outcome bool) (h : A -> bool) l : (forall a, In a l -> f a = Ret (h a)) -> anyM f l = Ret (existsb h l).
Proof.
  induction l as [|a l IH]; intros H; simpl; auto. rewrite H by (left; auto). cbn [bind]. destruct (h a); simpl; auto.
  apply IH. intros; apply H; right; auto.
Qed.

Lemma intersect_ok r : okr r -> exists b, intersect g (Some T) r = Ret b /\ (b = true <-> exists x, inr r x /\ In (lex sz x) T).
Proof.
  intros Ho. pose proof (okr_upper g _ Ho) as HU. pose proof Ho as (_ & HL & _). unfold intersect.
  set (h := fun id => match in_range_flat r id sz with Ret b => b | _ => false end).
  assert (forall id, In id T -> exists x, valid_index sz x /\ lex sz x = id /\ in_range_flat r id sz = Ret (in_range r x) /\ (in_range r x = true <-> inr r x)) as Hid.
  { intros id Hin. rewrite Forall_forall in HT. specialize (HT id Hin). destruct (valid_exists g Hg Hcells id HT) as (x & Hv & Ex). exists x. split; auto. split; auto.
    pose proof (valid_index_length _ _ Hv) as Hl. pose proof (sz_len g Hg) as Hs. subst id. split.
    - apply in_range_flat_ok; auto; unfold sz; lia.
    - apply in_range_box; unfold sz in *; lia. }
  rewrite (anyM_ok _ h).
  - eexists. split; [reflexivity|]. rewrite existsb_exists. split.
    + intros (id & Hin & Hh). destruct (Hid id Hin) as (x & Hv & Ex & E1 & E2). unfold h in Hh. rewrite E1 in Hh. exists x. subst. split; [now apply E2|auto].
    + intros (x & Hx & Hin). exists (lex sz x). split; auto. destruct (Hid _ Hin) as (y & Hv & Ey & E1 & E2). unfold h. rewrite E1.
      assert (y = x) as -> by (apply (lex_inj sz); auto; exact (okr_valid g Hg _ _ Ho Hx)). now apply E2.
  - intros id Hin. destruct (Hid id Hin) as (x & Hv & Ex & E1 & E2). unfold h. fold sz. now rewrite E1.
Qed.

Definition tcell_ok (m : fmap) (t : tree) (x : list Z) : Prop :=
  (In (lex sz x) T -> exists st entry, status_at t x st /\ cres (lex sz x) by_cell st entry /\
     match entry with Some v => In (lex sz x, v) m | None => ~ In (lex sz x) (map fst m) end) /\
  (~ In (lex sz x) T -> status_at t x Cunknown /\ ~ In (lex sz x) (map fst m)).

Definition tpost (r : range) (s : cstate) (t : tree) (s' : cstate) : Prop :=
  tree_range t = r /\ tree_ok g t /\
  exists m, cs_fm s' = cs_fm s ++ m /\ NoDup (map fst m) /\ (forall id, In id (map fst m) -> exists x, inr r x /\ id = lex sz x) /\
    (forall x, inr r x -> tcell_ok m t x).

Lemma create_target_ok : forall fuel r s, okr r -> (Z.to_nat (range_size r) <= fuel)%nat ->
  (forall x, inr r x -> ~ In (lex sz x) (map fst (cs_fm s))) ->
  (cdec fuel (Leaf r Cunknown) s = Abort /\ exists k b, sign k b <> Sund) \/
  exists t s', cdec fuel (Leaf r Cunknown) s = Ret (t, s') /\ tpost r s t s'.
Proof.
  induction fuel as [|fuel IH]; intros r s Ho Hf Hfresh.
  { pose proof (range_size_nonneg g r Ho). lia. }
  cbn [create_decomposition tree_range].
  destruct (intersect_ok r Ho) as (hit & Ehit & Hhit). rewrite Ehit. cbn [bind].
  destruct hit; cbn [negb].
  2:{ right. eexists _, _. split; [reflexivity|]. split; [reflexivity|]. split; [exact Ho|]. exists []. rewrite app_nil_r. split; auto.
      split; [constructor|]. split; [intros ? []|]. intros x Hx. split.
      - intros Hin. exfalso. assert (false = true) by (apply Hhit; eauto). discriminate.
      - intros _. split; [split; auto|intros []]. }
  rewrite (sub_domain_ok g Hg) by auto. cbn [bind]. rewrite (extend_ok g Hg) by auto. cbn [bind].
  pose proof (range_size_nonneg g r Ho) as Hpos.
  destruct (sign (cs_signs s) (ext (rlo g r) (rhi g r))) eqn:Es.
  1,2: left; split; [reflexivity|]; eexists _, _; rewrite Es; discriminate.
  destruct (sub_is_unique r) eqn:Eu.
  - unfold sub_is_unique in Eu. assert (range_size r = 1) as E1 by lia.
    destruct (unique_range g r Ho E1) as (Er & Hin & Elo & Ehi).
    set (x := lower r) in *. assert (inr r x) as Hx by now apply Hin.
    assert (In (lex sz x) T) as HxT. { destruct (proj1 Hhit eq_refl) as (y & Hy & HyT). apply Hin in Hy. now rewrite Hy in HyT. }
    pose proof (okr_valid g Hg _ _ Ho Hx) as Hv. pose proof (lex_bounds _ _ Hv) as Hlb. pose proof int_max_64.
    unfold classify_undetermined. cbn [tree_range]. rewrite assert_true by (unfold sub_is_unique; lia).
    rewrite (sub_domain_ok g Hg) by auto. cbn [bind].
    unfold sub_single_cell. rewrite assert_true by (unfold sub_is_unique; lia).
    unfold sub_to_flat. fold x. rewrite assert_true.
    2:{ apply in_range_box; auto; [apply (okr_upper g r) in Ho as HU; destruct Ho as (_ & HL & _); unfold x; lia]. }
    rewrite to_flat_ok by (auto; unfold sz in *; lia). cbn [bind]. rewrite Elo, Ehi in *.
    set (c := ccell (mk_box (cell_lo g x) (cell_hi g x))) in *.
    set (fs := map (fun f => cfacet (mk_range x (map (Z.add 1) x)) f c) (seq 0 (2 * length (breaks g)))).
    assert (map (fun f => cfacet r f c) (seq 0 (n_facets g)) = fs) as Ef.
    { unfold fs, n_facets. rewrite <- Er. reflexivity. }
    rewrite Ef. cbn [cs_fm cs_signs cs_classified].
    assert (forall st entry, individually c fs st entry -> cres (lex sz x) by_cell st entry) as Hres.
    { intros st entry Hi. apply (cr_cell g sign ccell cfacet (lex sz x) (cs_signs s) (cell_lo g x) (cell_hi g x) x st entry).
      - apply cell_domain_ok; auto.
      - exact Es.
      - apply to_tensor_lex; auto.
      - exact Hi. }
    assert (forall st entry s', individually c fs st entry ->
       cs_fm s' = (match entry with Some v => cs_fm s ++ [(lex sz x, v)] | None => cs_fm s end) ->
       tpost r s (Leaf r st) s') as Hpost.
    { intros st entry s' Hi Es'. split; [reflexivity|]. split; [exact Ho|].
      exists (match entry with Some v => [(lex sz x, v)] | None => [] end).
      split; [rewrite Es'; destruct entry; auto; now rewrite app_nil_r|].
      split; [destruct entry; repeat constructor; intros []|].
      split; [destruct entry; simpl; [intros id [<-|[]]; exists x; auto|intros ? []]|].
      intros y Hy. apply Hin in Hy. subst y. split; [|tauto]. intros _. exists st, entry. split; [split; auto|]. split; [auto|]. destruct entry; simpl; auto. }
    assert (~ In (lex sz x) (map fst (cs_fm s))) as Hnew by auto.
    assert (forall v, fm_emplace (lex sz x) v (cs_fm s) = cs_fm s ++ [(lex sz x, v)]) as Hemp.
    { intros v. unfold fm_emplace. rewrite (proj2 (fm_contains_false _ _) Hnew). reflexivity. }
    right. clearbody fs. destruct c eqn:Ec; cbn [andb transform_status set_status bind]; rewrite ?Hemp.
    + rewrite assert_true by (unfold sub_is_unique; lia). cbn [bind]. eexists _, _. split; [reflexivity|].
      apply (Hpost Ccut (Some fs)); [split; reflexivity|reflexivity].
    + eexists _, _. split; [reflexivity|]. apply (Hpost Cfull None); [split; reflexivity|reflexivity].
    + eexists _, _. split; [reflexivity|]. apply (Hpost Cempty None); [split; reflexivity|reflexivity].
    + destruct (forallb is_Ffull fs) eqn:Eall; cbn [bind]; eexists _, _; (split; [reflexivity|]).
      * apply (Hpost Cfull None); [|reflexivity]. split; [reflexivity|]. simpl. now rewrite Eall.
      * apply (Hpost Cfull (Some fs)); [|reflexivity]. split; [reflexivity|]. simpl. now rewrite Eall.
  - unfold branch. rewrite Eu. cbn [negb]. rewrite assert_true by auto.
    unfold sub_is_unique in Eu.
    destruct (okr_split g Hg Hdir r Ho ltac:(lia)) as (a & b & Hsp & Ha & Hb & Hpart & Hdis & Hsz & Pa & Pb).
    rewrite Hsp. cbn [bind fst snd].
    set (s1 := mk_cstate (cs_fm s) (S (cs_signs s)) (cs_classified s)).
    destruct (IH a s1 Ha) as [[Ea Hk]|(ta & sa & Ea & (Ra & Ta & ma & Ma & NDma & Inma & Stata))].
    { lia. } { intros x Hx. apply Hfresh. apply Hpart. auto. }
    { left. rewrite Ea. auto. }
    cbn [s1 cs_fm cs_signs cs_classified] in *. rewrite Ea. cbn [bind fst snd].
    destruct (IH b sa Hb) as [[Eb Hk]|(tb & sb & Eb & (Rb & Tb & mb & Mb & NDmb & Inmb & Statb))].
    { lia. }
    { intros x Hx. rewrite Ma, map_app, in_app_iff. intros [Hin|Hin].
      - revert Hin. apply Hfresh. apply Hpart. auto.
      - apply Inma in Hin as (y & Hy & E). assert (x = y) by (eapply (lex_inr_inj g Hg b a); eauto). subst. apply (Hdis y); auto. }
    { left. rewrite Eb. auto. }
    right. rewrite Eb. cbn [bind fst snd]. eexists _, _. split; [reflexivity|].
    split; [reflexivity|]. split.
    { cbn [tree_ok]. rewrite Ra, Rb. auto 10. }
    exists (ma ++ mb). rewrite Mb, Ma, !app_assoc. split; [auto|].
    assert (forall x y, inr a x -> inr b y -> lex sz x <> lex sz y) as Hsep.
    { intros x y Hx Hy E. assert (x = y) by (eapply (lex_inr_inj g Hg a b); eauto). subst. apply (Hdis y); auto. }
    split. { rewrite map_app. apply NoDup_app_own; auto. intros i Hi Hj. apply Inma in Hi as (x & Hx & ->). apply Inmb in Hj as (y & Hy & E). eapply Hsep; eauto. }
    split. { intros id. rewrite map_app, in_app_iff. intros [Hi|Hi]; [apply Inma in Hi as (x & Hx & ->)|apply Inmb in Hi as (x & Hx & ->)]; exists x; split; auto; apply Hpart; auto. }
    intros x Hx. apply Hpart in Hx as [Hx|Hx].
    + assert (~ In (lex sz x) (map fst mb)) as Hno. { intros Hi. apply Inmb in Hi as (y & Hy & E). eapply Hsep; eauto. }
      destruct (Stata x Hx) as [H1 H2]. split.
      * intros Hin. destruct (H1 Hin) as (st & entry & S1 & S2 & S3). exists st, entry. split; [left; auto|]. split; auto.
        destruct entry; [rewrite in_app_iff; auto|]. rewrite map_app, in_app_iff. tauto.
      * intros Hin. destruct (H2 Hin) as [S1 S2]. split; [left; auto|]. rewrite map_app, in_app_iff. tauto.
    + assert (~ In (lex sz x) (map fst ma)) as Hno. { intros Hi. apply Inma in Hi as (y & Hy & E). eapply Hsep; eauto. }
      destruct (Statb x Hx) as [H1 H2]. split.
      * intros Hin. destruct (H1 Hin) as (st & entry & S1 & S2 & S3). exists st, entry. split; [right; auto|]. split; auto.
        destruct entry; [rewrite in_app_iff; auto|]. rewrite map_app, in_app_iff. tauto.
      * intros Hin. destruct (H2 Hin) as [S1 S2]. split; [right; auto|]. rewrite map_app, in_app_iff. tauto.
Qed.
End Target.

Lemma C18_lemma : forall g sign ccell cfacet T order, usable_grid g -> map_order order -> Forall (cell_id g) T ->
  (build_domain g sign ccell cfacet (Some T) order = Abort /\ exists k b, sign k b <> Sund) \/
  exists D s, build_domain g sign ccell cfacet (Some T) order = Ret (D, s) /\ forall id, cell_id g id ->
    exists st, is_full_cell D id = Ret (cstatus_eqb st Cfull) /\ is_empty_cell D id = Ret (cstatus_eqb st Cempty) /\
      is_cut_cell D id = Ret (cstatus_eqb st Ccut) /\
      (In id T -> cell_result g sign ccell cfacet id by_cell st (fm_find (d_fm D) id)) /\
      (~ In id T -> st = Cunknown /\ fm_find (d_fm D) id = None).
Proof.
  intros g sign ccell cfacet T order Hu Ho HT. destruct (usable_facts g Hu) as (Hg & Hc & Hd & En).
  assert (Forall (fun id => 0 <= id < cells (num_cells_dir g)) T) as HT'.
  { eapply Forall_impl; [|exact HT]. unfold cell_id. rewrite En. auto. }
  destruct (okr_full g Hg) as (r & Hr & Hor & Hs & Hin).
  destruct (create_target_ok g Hg Hc Hd sign ccell cfacet T HT' (Z.to_nat (range_size r)) r (mk_cstate [] 0 []) Hor (le_n _)) as [[E Hk]|(t & s & E & (R & Ht & m0 & Hm & Hnd & Hmi & Hx))].
  { intros x _ []. }
  { left. unfold build_domain, build. rewrite Hr. cbn [bind]. rewrite E. auto. }
  right. cbn [cs_fm app] in Hm. subst m0. unfold build_domain, build. rewrite Hr. cbn [bind]. rewrite E. cbn [bind fst snd].
  set (m := order (cs_fm s)). assert (Permutation m (cs_fm s)) as Hp by apply Ho.
  assert (NoDup (map fst m)) as Hn. { eapply Permutation_NoDup; [apply Permutation_map; symmetry; exact Hp|auto]. }
  assert (forall id, In id (map fst m) <-> In id (map fst (cs_fm s))) as Hkk.
  { intros id. split; apply Permutation_in; apply Permutation_map; auto. now symmetry. }
  set (L := lex (num_cells_dir g)) in *.
  assert (forall x, valid_index (num_cells_dir g) x -> exists st, status_at t x st /\
     (In (L x) T -> cell_result g sign ccell cfacet (L x) by_cell st (fm_find m (L x))) /\
     (~ In (L x) T -> st = Cunknown /\ fm_find m (L x) = None)) as Hcell.
  { intros x Hv. apply Hin in Hv. destruct (Hx x Hv) as [H1 H2]. destruct (in_dec Z.eq_dec (L x) T) as [Hi|Hi].
    - destruct (H1 Hi) as (st & entry & S1 & S2 & S3). exists st. split; auto. split; [|tauto]. intros _.
      replace (fm_find m (L x)) with entry; auto. symmetry. destruct entry as [v|].
      + apply fm_find_some; auto. eapply Permutation_in; [symmetry; exact Hp|auto].
      + apply fm_find_none. rewrite Hkk. auto.
    - destruct (H2 Hi) as [S1 S2]. exists Cunknown. split; auto. split; [tauto|]. intros _. split; auto. apply fm_find_none. rewrite Hkk. auto. }
  destruct (init_full_unf_ok g t m Hg Hc Ht Hn) as (fu & Efu & Hfu).
  { intros x Hst. pose proof (status_at_inr g t Ht _ _ Hst) as Hi. rewrite R in Hi. apply Hin in Hi.
    destruct (Hcell x Hi) as (st & H1 & H2 & H3). assert (st = Ccut) by (eapply (status_at_fun g t Ht); eauto). subst.
    destruct (in_dec Z.eq_dec (L x) T) as [Hj|Hj]; [|destruct (H3 Hj); discriminate].
    specialize (H2 Hj). apply cr_entry in H2 as (_ & H2 & _). destruct (H2 eq_refl) as [H4 _].
    fold L. destruct (fm_find m _) eqn:Ef; [|congruence]. apply fm_find_in in Ef. apply in_map_iff. eexists; split; [|exact Ef]; auto. }
  rewrite Efu. cbn [bind]. eexists _, _. split; [reflexivity|]. intros id Hid.
  unfold cell_id in Hid. rewrite En in Hid. destruct (valid_exists g Hg Hc id Hid) as (x & Hv & <-). fold L.
  destruct (Hcell x Hv) as (st & H1 & H2 & H3). exists st.
  unfold is_full_cell, is_empty_cell, is_cut_cell, tree_is_cell. cbn [d_grid d_tree d_fm].
  assert (find_leaf g t (L x) = Ret st) as Efl by exact (find_leaf_ok g Hg Hc t Ht x st H1). rewrite Efl. cbn [bind]. split; auto. split; auto. split; [|auto].
  destruct (fm_contains m (L x)) eqn:Ec; [auto|]. f_equal. symmetry. destruct (cstatus_eqb st Ccut) eqn:Es; auto. exfalso.
  apply fm_contains_false in Ec. apply fm_find_none in Ec.
  destruct st; try discriminate. destruct (in_dec Z.eq_dec (L x) T) as [Hj|Hj]; [|destruct (H3 Hj); discriminate].
  specialize (H2 Hj). apply cr_entry in H2 as (_ & H2 & _). destruct (H2 eq_refl). congruence.
Qed.

(** ** Witnesses *)
Lemma demo_usable : exists g, usable_grid g /\ num_cells g = 2 /\ length (breaks g) = 2%nat /\
  get_cell_domain g 0 = Ret (mk_box [0;0]%R [1;1]%R) /\ get_cell_domain g 1 = Ret (mk_box [1;0]%R [2;1]%R).
Proof.
  destruct demo_grid_ex as (g & Hmk & Hn & _ & _ & H0 & H1). exists g.
  destruct (make_grid_facts demo_breaks g ltac:(discriminate) Hmk) as [Hg Eb].
  split; [|split; [auto|split; [now rewrite Eb|auto]]].
  split; [exists demo_breaks; split; [discriminate|auto]|]. split; [rewrite Hn; unfold INT_MAX; lia|].
  rewrite (gf_size g Hg), Eb. repeat constructor; simpl; lia.
Qed.

Lemma map_order_id : map_order (fun m => m).
Proof. intros m. apply Permutation_refl. Qed.

(** A cut domain whose facets only carry a piece of unfitted boundary. *)
Lemma demo_built sign ccell cfacet : exists g D s, built g sign ccell cfacet D s /\ num_cells g = 2 /\ length (breaks g) = 2%nat.
Proof.
  destruct demo_usable as (g & Hu & Hn & Hb & _).
  destruct (build_domain_ok g sign ccell cfacet (fun m => m) Hu map_order_id) as (D & s & E & _).
  exists g, D, s. split; [|auto]. split; [auto|]. exists (fun m => m). split; [apply map_order_id|exact E].
Qed.

Lemma C18_refuted_lemma : exists g sign ccell cfacet T order, usable_grid g /\ map_order order /\ Forall (cell_id g) T /\
  build_domain g sign ccell cfacet (Some T) order = Abort.
Proof.
  destruct demo_usable as (g & Hu & Hn & Hb & _).
  exists g, (fun _ _ => Sneg), (fun _ => Tcut), (fun _ _ _ => Fcut), [0], (fun m => m).
  split; [auto|]. split; [apply map_order_id|]. split; [constructor; [unfold cell_id; lia|constructor]|].
  destruct (usable_facts g Hu) as (Hg & Hc & Hd & En).
  destruct (okr_full g Hg) as (r & Hr & Hor & Hs & Hin).
  unfold build_domain, build. rewrite Hr. cbn [bind].
  assert (range_size r = 2) as E2 by lia. rewrite E2. change (Z.to_nat 2) with 2%nat.
  cbn [create_decomposition tree_range].
  assert (Forall (fun id => 0 <= id < cells (num_cells_dir g)) [0]) as HT by (repeat constructor; lia).
  destruct (intersect_ok g Hg Hc [0] HT r Hor) as (b & Eb & Hbt). rewrite Eb. cbn [bind].
  assert (b = true) as ->.
  { apply Hbt. destruct (valid_exists g Hg Hc 0) as (x & Hv & Ex); [lia|]. exists x. split; [now apply Hin|]. rewrite Ex. simpl; auto. }
  cbn [negb]. rewrite (sub_domain_ok g Hg) by auto. cbn [bind]. rewrite (extend_ok g Hg) by auto. reflexivity.
Qed.

Lemma C22_refuted_lemma : exists g sign ccell cfacet D s id f, built g sign ccell cfacet D s /\ cell_id g id /\ facet_id g f /\
  is_full_facet D id f = Ret false /\ is_empty_facet D id f = Ret false /\ is_cut_facet D id f = Ret false /\ is_full_unfitted_facet D id f = Ret false.
Proof.
  destruct (demo_built (fun _ _ => Sund) (fun _ => Tcut) (fun _ _ _ => Funf)) as (g & D & s & HB & Hn & Hb).
  do 4 eexists. exists D, s, 0, 0. split; [exact HB|].
  assert (cell_id g 0) as Hid by (unfold cell_id; lia). assert (facet_id g 0) as Hf by (unfold facet_id; lia).
  split; [auto|]. split; [auto|].
  destruct (stat_cell _ _ _ _ _ _ HB 0 Hid) as (st & h & Hs & Hcr & Hcls & Hfl).
  assert (exists v, fm_find (d_fm D) 0 = Some v /\ nth 0 v Ffull = Funf) as (v & Ev & Env).
  { inversion Hcr as [k b lo hi E1 E2 E3 EE|k b lo hi E1 E2 E3 EE|k lo hi tid st' e E1 E2 E3 c [Hi1 Hi2]]; subst; try discriminate.
    rewrite Hi2. cbn. eexists. split; [reflexivity|]. rewrite Hb. reflexivity. }
  unfold is_full_facet, is_empty_facet, is_cut_facet, is_full_unfitted_facet.
  rewrite (facet_query_ok _ _ _ _ _ _ HB st_is_full _ (only Cfull) 0 0 st Hid Hf Hs) by (apply (is_cell_stat _ _ _ _ _ _ HB); auto).
  rewrite (facet_query_ok _ _ _ _ _ _ HB st_is_empty _ (only Cempty) 0 0 st Hid Hf Hs) by (apply (is_cell_stat _ _ _ _ _ _ HB); auto).
  rewrite !(fun p => facet_query_ok _ _ _ _ _ _ HB p (Ret false) (fun _ => false) 0 0 st Hid Hf Hs eq_refl).
  rewrite Ev. unfold fb_of. change (Z.to_nat 0) with 0%nat. rewrite Env. auto.
Qed.

Lemma C16_example : exists g D s (phi : list R -> R), let sign := fun (_ : nat) (b : bbox) => if Rltb (nth 0 (bmax b) 3%R) 2 then Sneg else Sund in
  built g sign (fun _ => Tcut) (fun _ _ _ => Fcut) D s /\ num_cells g = 2 /\
  (forall k b, sign k b = Sneg -> forall p, in_closed (bmin b) (bmax b) p -> (phi p < 0)%R) /\
  (forall k b, sign k b = Spos -> forall p, in_closed (bmin b) (bmax b) p -> (0 < phi p)%R).
Proof.
  destruct (demo_built (fun (_ : nat) (b : bbox) => if Rltb (nth 0 (bmax b) 3%R) 2 then Sneg else Sund) (fun _ => Tcut) (fun _ _ _ => Fcut)) as (g & D & s & HB & Hn & Hb).
  exists g, D, s, (fun p => nth 0 p 0 - 2)%R. split; [exact HB|]. split; [auto|]. split.
  - intros k b. destruct (Rltb_spec (nth 0 (bmax b) 3%R) 2) as [Hlt|]; [|discriminate]. intros _ p (L1 & L2 & Hp).
    destruct (bmax b) as [|y l]; [simpl in Hlt; lra|]. simpl in L2. specialize (Hp O ltac:(lia)). simpl in Hp, Hlt. lra.
  - intros k b. destruct (Rltb _ _); discriminate.
Qed.
