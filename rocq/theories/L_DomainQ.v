From Verif Require Import M_Domain S_Domain S_Grid L_Real L_BBox L_Grid L_TensorIndex L_Domain L_DomainBuild.
From Coq Require Import Lra Sorting.Sorted Permutation.
Open Scope Z_scope.

Lemma usable_facts g : usable_grid g -> grid_facts g /\ cells (num_cells_dir g) <= INT_MAX /\ Forall (fun s => s <= 2 ^ 30) (num_cells_dir g) /\ num_cells g = cells (num_cells_dir g).
Proof.
  intros ((brks & Hne & Hmk) & Hn & Hd). destruct (make_grid_facts _ _ Hne Hmk) as [Hg _].
  unfold num_cells in *. rewrite size_prod_cells in *. auto.
Qed.

(** Everything known about a built domain, cell by cell. *)
Record dom_facts (g : grid) sign ccell cfacet (D : domain) (s : cstate) : Prop := {
  df_grid : d_grid D = g;
  df_tree : tree_ok g (d_tree D);
  df_range : forall x, inr (tree_range (d_tree D)) x <-> valid_index (num_cells_dir g) x;
  df_size : range_size (tree_range (d_tree D)) = num_cells g;
  df_signs : 1 <= Z.of_nat (cs_signs s) <= 2 * num_cells g - 1;
  df_cls_nd : NoDup (cs_classified s);
  df_cls_n : Z.of_nat (length (cs_classified s)) <= num_cells g;
  df_cls_in : forall id, In id (cs_classified s) -> 0 <= id < num_cells g;
  df_keys : NoDup (map fst (d_fm D));
  df_keys_in : forall id, In id (map fst (d_fm D)) -> 0 <= id < num_cells g;
  df_cell : forall x, valid_index (num_cells_dir g) x -> exists st h, status_at (d_tree D) x st /\
     cell_result g sign ccell cfacet (lex (num_cells_dir g) x) h st (fm_find (d_fm D) (lex (num_cells_dir g) x)) /\
     (h = by_cell <-> In (lex (num_cells_dir g) x) (cs_classified s));
  df_fu : forall id, In id (d_full_unf D) <-> In id (map fst (d_fm D)) /\ ~ exists x, status_at (d_tree D) x Ccut /\ id = lex (num_cells_dir g) x
}.

Lemma mem_z_in l x : mem_z l x = true <-> In x l.
Proof. unfold mem_z. rewrite existsb_exists. split; [intros (y & Hy & E); assert (x = y) by lia; now subst|intros H; exists x; split; auto; lia]. Qed.

Lemma cr_entry g sign ccell cfacet id h st e : cell_result g sign ccell cfacet id h st e ->
  st <> Cunknown /\ (st = Ccut -> e <> None /\ h = by_cell) /\
  (forall v, e = Some v -> length v = (2 * length (breaks g))%nat /\ (st = Ccut \/ st = Cfull /\ forallb is_Ffull v = false)).
Proof.
  intros H. destruct H as [k b lo hi H1 H2 H3|k b lo hi H1 H2 H3|k lo hi tid st e H1 H2 H3 c [-> ->]].
  - split; [congruence|]. split; [congruence|]. discriminate.
  - split; [congruence|]. split; [congruence|]. discriminate.
  - set (fs := map _ _). assert (length fs = (2 * length (breaks g))%nat) as L by (unfold fs; now rewrite map_length, seq_length).
    destruct c; simpl; split; try congruence; split; try congruence.
    + intros _. split; [congruence|auto].
    + intros v E. injection E as <-. split; auto.
    + intros v E. destruct (forallb is_Ffull fs) eqn:Ef; simpl in E; [discriminate|]. injection E as <-. auto.
Qed.

Lemma init_full_unf_ok g t m : grid_facts g -> cells (num_cells_dir g) <= INT_MAX -> tree_ok g t -> NoDup (map fst m) ->
  (forall x, status_at t x Ccut -> In (lex (num_cells_dir g) x) (map fst m)) ->
  exists fu, init_full_unf g t m = Ret fu /\
    forall id, In id fu <-> In id (map fst m) /\ ~ exists x, status_at t x Ccut /\ id = lex (num_cells_dir g) x.
Proof.
  intros Hg Hc Ht Hn Hin. unfold init_full_unf.
  destruct (tree_cell_ids_ok g Hg Hc Ccut t Ht) as (l & E & Hs & Hl & Hl').
  assert (incl l (map fst m)) as Hi.
  { intros id Hid. apply Hl' in Hid as (x & Hx & ->). auto. }
  destruct (Z.eqb_spec (Z.of_nat (length m) - tree_num_cells t Ccut) 0) as [Ez|Ez].
  - exists []. split; auto. intros id. split; [intros []|]. intros [Hid Hno]. apply Hno. apply Hl'.
    refine (NoDup_length_incl _ _ Hi _ Hid); [apply sorted_lt_nodup; auto|]. rewrite map_length. lia.
  - rewrite E. cbn [bind]. eexists. split; [reflexivity|]. intros id. rewrite zsort_in, filter_In, negb_true_iff, <- Hl', <- (mem_z_in l id).
    destruct (mem_z l id); intuition congruence.
Qed.

Lemma build_domain_ok g sign ccell cfacet order : usable_grid g -> map_order order ->
  exists D s, build_domain g sign ccell cfacet None order = Ret (D, s) /\ dom_facts g sign ccell cfacet D s.
Proof.
  intros Hu Ho. destruct (usable_facts g Hu) as (Hg & Hc & Hd & En).
  destruct (build_ok g Hg Hc Hd sign ccell cfacet) as (t & s & E & Ht & Hsz & Hr & Hsig & Hcn & Hcl & Hci & Hmn & Hmi & Hcell).
  unfold build_domain. rewrite E. cbn [bind fst snd].
  set (m := order (cs_fm s)). assert (Permutation m (cs_fm s)) as Hp by apply Ho.
  assert (NoDup (map fst m)) as Hn. { eapply Permutation_NoDup; [apply Permutation_map; symmetry; exact Hp|auto]. }
  assert (forall id, In id (map fst m) <-> In id (map fst (cs_fm s))) as Hk.
  { intros id. split; apply Permutation_in; apply Permutation_map; auto. now symmetry. }
  assert (forall x, valid_index (num_cells_dir g) x -> exists st h, status_at t x st /\
     cell_result g sign ccell cfacet (lex (num_cells_dir g) x) h st (fm_find m (lex (num_cells_dir g) x)) /\
     (h = by_cell <-> In (lex (num_cells_dir g) x) (cs_classified s))) as Hx.
  { intros x Hx. destruct (Hcell x Hx) as (st & Hst & h & e & Hc1 & Hc2 & Hc3). exists st, h. split; auto. split; auto.
    replace (fm_find m _) with e; auto. symmetry. destruct e as [v|].
    - apply fm_find_some; auto. eapply Permutation_in; [symmetry; exact Hp|auto].
    - apply fm_find_none. rewrite Hk. auto. }
  destruct (init_full_unf_ok g t m Hg Hc Ht Hn) as (fu & Efu & Hfu).
  { intros x Hst. pose proof (status_at_inr g t Ht _ _ Hst) as Hin. apply Hr in Hin.
    destruct (Hx x Hin) as (st & h & H1 & H2 & H3). assert (st = Ccut) by (eapply (status_at_fun g t Ht); eauto). subst.
    apply cr_entry in H2 as (_ & H2 & _). destruct (H2 eq_refl) as [H4 _].
    destruct (fm_find m _) eqn:Ef; [|congruence]. apply fm_find_in in Ef. apply in_map_iff. eexists; split; [|exact Ef]; auto. }
  rewrite Efu. cbn [bind]. eexists _, _. split; [reflexivity|]. rewrite <- En in *.
  constructor; cbn [d_grid d_tree d_fm d_full_unf]; auto.
  intros id. rewrite Hk. auto.
Qed.

Lemma built_facts g sign ccell cfacet D s : built g sign ccell cfacet D s -> dom_facts g sign ccell cfacet D s.
Proof.
  intros (Hu & order & Ho & E). destruct (build_domain_ok g sign ccell cfacet order Hu Ho) as (D' & s' & E' & H).
  rewrite E in E'. injection E' as <- <-. exact H.
Qed.

Section Dom.
Context (g : grid) (sign : nat -> bbox -> fsign) (ccell : bbox -> tmpstatus) (cfacet : range -> nat -> tmpstatus -> fstatus) (D : domain) (s : cstate).
Hypothesis HB : built g sign ccell cfacet D s.
Let HF := built_facts _ _ _ _ _ _ HB.
Let Hu : usable_grid g := proj1 HB.
Let Hg := proj1 (usable_facts g Hu).
Let Hc := proj1 (proj2 (usable_facts g Hu)).
Let En : num_cells g = cells (num_cells_dir g) := proj2 (proj2 (proj2 (usable_facts g Hu))).
Notation L := (lex (num_cells_dir g)).

Lemma id_tid id : cell_id g id -> exists x, valid_index (num_cells_dir g) x /\ L x = id.
Proof. unfold cell_id. rewrite En. apply valid_exists; auto. Qed.

(** The status of every cell. *)
Definition stat (id : Z) (st : cstatus) : Prop := exists x, status_at (d_tree D) x st /\ id = L x.

Lemma stat_cell id : cell_id g id -> exists st h, stat id st /\ cell_result g sign ccell cfacet id h st (fm_find (d_fm D) id) /\
   (h = by_cell <-> In id (cs_classified s)) /\ find_leaf g (d_tree D) id = Ret st.
Proof.
  intros H. destruct (id_tid id H) as (x & Hv & <-). destruct (df_cell _ _ _ _ _ _ HF x Hv) as (st & h & H1 & H2 & H3).
  exists st, h. split; [exists x; auto|]. split; auto. split; auto. apply find_leaf_ok; auto. apply (df_tree _ _ _ _ _ _ HF).
Qed.
Lemma stat_valid id st : stat id st -> cell_id g id.
Proof.
  intros (x & Hx & ->). apply status_at_inr with (g := g) in Hx; [|apply (df_tree _ _ _ _ _ _ HF)]. apply (df_range _ _ _ _ _ _ HF) in Hx.
  unfold cell_id. rewrite En. now apply lex_bounds.
Qed.
Lemma stat_fun id st st' : stat id st -> stat id st' -> st = st'.
Proof.
  intros (x & Hx & ->) (y & Hy & E).
  pose proof (df_tree _ _ _ _ _ _ HF) as Ht.
  assert (x = y) as <-.
  { apply (lex_inj (num_cells_dir g)); auto; apply (df_range _ _ _ _ _ _ HF); eapply status_at_inr; eauto. }
  eapply status_at_fun; eauto.
Qed.
Lemma stat_unknown id : ~ stat id Cunknown.
Proof.
  intros H. destruct (stat_cell id (stat_valid _ _ H)) as (st & h & H1 & H2 & _).
  rewrite (stat_fun _ _ _ H1 H) in *. apply cr_entry in H2. tauto.
Qed.

Lemma cells_ok st : exists l, get_cells D st = Ret l /\ StronglySorted Z.lt l /\ Z.of_nat (length l) = get_num_cells D st /\
  forall id, In id l <-> stat id st.
Proof.
  unfold get_cells. rewrite (df_grid _ _ _ _ _ _ HF).
  destruct (tree_cell_ids_ok g Hg Hc st (d_tree D) (df_tree _ _ _ _ _ _ HF)) as (l & H1 & H2 & H3 & H4). exists l. auto.
Qed.

Lemma cstatus_eqb_eq a b : cstatus_eqb a b = true <-> a = b.
Proof. destruct a, b; simpl; split; congruence. Qed.

Lemma is_cell_ok st id : cell_id g id -> exists b, tree_is_cell (d_grid D) (d_tree D) st id = Ret b /\ (b = true <-> stat id st).
Proof.
  intros H. destruct (stat_cell id H) as (st' & h & H1 & _ & _ & H2). rewrite (df_grid _ _ _ _ _ _ HF). unfold tree_is_cell. rewrite H2. cbn [bind].
  eexists. split; [reflexivity|]. rewrite cstatus_eqb_eq. split; [intros ->; auto|]. intros H3. eapply stat_fun; eauto.
Qed.

Lemma is_cut_cell_ok id : cell_id g id -> exists b, is_cut_cell D id = Ret b /\ (b = true <-> stat id Ccut).
Proof.
  intros H. unfold is_cut_cell. destruct (fm_contains (d_fm D) id) eqn:E.
  - now apply is_cell_ok.
  - exists false. split; auto. split; [discriminate|]. intros Hs. destruct (stat_cell id H) as (st' & h & H1 & H2 & _ & _).
    rewrite (stat_fun _ _ _ H1 Hs) in H2. apply cr_entry in H2 as (_ & H2 & _). destruct (H2 eq_refl) as [H3 _].
    apply fm_contains_false in E. now rewrite (fm_find_none _ _ E) in H3.
Qed.

(** C13 *)
Lemma C13_body : exists F E C, get_cells D Cfull = Ret F /\ get_cells D Cempty = Ret E /\ get_cells D Ccut = Ret C /\
  StronglySorted Z.lt F /\ StronglySorted Z.lt E /\ StronglySorted Z.lt C /\
  (forall id, cell_id g id <-> In id F \/ In id E \/ In id C) /\
  (forall id, ~ (In id F /\ In id E) /\ ~ (In id F /\ In id C) /\ ~ (In id E /\ In id C)) /\
  get_num_cells D Cfull = Z.of_nat (length F) /\ get_num_cells D Cempty = Z.of_nat (length E) /\
  get_num_cells D Ccut = Z.of_nat (length C) /\
  get_num_cells D Cfull + get_num_cells D Cempty + get_num_cells D Ccut = num_cells g.
Proof.
  destruct (cells_ok Cfull) as (F & F1 & F2 & F3 & F4). destruct (cells_ok Cempty) as (E & E1 & E2 & E3 & E4). destruct (cells_ok Ccut) as (C & C1 & C2 & C3 & C4).
  exists F, E, C. do 6 (split; [auto|]). split; [|split].
  - intros id. rewrite F4, E4, C4. split.
    + intros H. destruct (stat_cell id H) as (st & h & H1 & _). destruct st; auto. now apply stat_unknown in H1.
    + intros [H|[H|H]]; eapply stat_valid; eauto.
  - intros id. rewrite F4, E4, C4. repeat split; intros [H1 H2]; pose proof (stat_fun _ _ _ H1 H2); discriminate.
  - do 3 (split; [lia|]). unfold get_num_cells. rewrite (tree_total g) by (try apply (df_tree _ _ _ _ _ _ HF); intros x Hx; apply (stat_unknown (L x)); exists x; auto).
    apply (df_size _ _ _ _ _ _ HF).
Qed.

(** C14 *)
Lemma C14_body : forall id F E C, cell_id g id -> get_cells D Cfull = Ret F -> get_cells D Cempty = Ret E -> get_cells D Ccut = Ret C ->
  exists f e c, is_full_cell D id = Ret f /\ is_empty_cell D id = Ret e /\ is_cut_cell D id = Ret c /\
   (f = true <-> In id F) /\ (e = true <-> In id E) /\ (c = true <-> In id C).
Proof.
  intros id F E C H EF EE EC.
  destruct (cells_ok Cfull) as (F' & F1 & F2 & F3 & F4). destruct (cells_ok Cempty) as (E' & E1 & E2 & E3 & E4). destruct (cells_ok Ccut) as (C' & C1 & C2 & C3 & C4).
  rewrite EF in F1. rewrite EE in E1. rewrite EC in C1. injection F1 as <-. injection E1 as <-. injection C1 as <-.
  destruct (is_cell_ok Cfull id H) as (f & Hf & Hf'). destruct (is_cell_ok Cempty id H) as (e & He & He'). destruct (is_cut_cell_ok id H) as (c & Hc1 & Hc').
  exists f, e, c. unfold is_full_cell, is_empty_cell. rewrite F4, E4, C4. auto 10.
Qed.

(** C15 *)
Lemma C15_body : forall st targets all, Forall (cell_id g) targets -> get_cells D st = Ret all ->
  exists l, get_cells_target D st targets = Ret l /\ StronglySorted Z.le l /\
    Permutation l (filter (fun id => if in_dec Z.eq_dec id all then true else false) targets).
Proof.
  intros st targets all Ht Ea. destruct (cells_ok st) as (l & H1 & H2 & H3 & H4). rewrite Ea in H1. injection H1 as <-.
  unfold get_cells_target, tree_cell_ids_target. rewrite (df_grid _ _ _ _ _ _ HF).
  rewrite (filterM_ok _ (fun id => if in_dec Z.eq_dec id all then true else false)).
  - cbn [bind]. eexists. split; [reflexivity|]. split; [apply zsort_sorted|apply zsort_perm].
  - intros id Hid. rewrite Forall_forall in Ht. specialize (Ht id Hid).
    destruct (is_cell_ok st id Ht) as (b & Hb & Hb'). rewrite (df_grid _ _ _ _ _ _ HF) in Hb.
    destruct (id_tid id Ht) as (x & Hv & <-).
    destruct (is_in_tree_ok g Hg Hc (d_tree D) x (df_tree _ _ _ _ _ _ HF) Hv) as [E1 E2]. rewrite E1. cbn [bind].
    rewrite assert_true by (apply E2, (df_range _ _ _ _ _ _ HF); auto). rewrite Hb. f_equal.
    rewrite <- H4 in Hb'. destruct (in_dec Z.eq_dec (L x) all), b; auto; [tauto|]. exfalso. apply n. now apply Hb'.
Qed.

(** C16 *)
Lemma C16_body : forall phi : list R -> R,
  (forall k b, sign k b = Sneg -> forall p, in_closed (bmin b) (bmax b) p -> (phi p < 0)%R) ->
  (forall k b, sign k b = Spos -> forall p, in_closed (bmin b) (bmax b) p -> (0 < phi p)%R) ->
  forall id, cell_id g id -> exists lo hi, get_cell_domain g id = Ret (mk_box lo hi) /\
    (~ In id (cs_classified s) ->
       (is_full_cell D id = Ret true -> forall p, in_closed lo hi p -> (phi p < 0)%R) /\
       (is_empty_cell D id = Ret true -> forall p, in_closed lo hi p -> (0 < phi p)%R)) /\
    (is_cut_cell D id = Ret true -> In id (cs_classified s)) /\
    (In id (cs_classified s) -> exists k,
       sign k (mk_box (map (fun x => x - eps * 1000)%R lo) (map (fun x => x + eps * 1000)%R hi)) = Sund).
Proof.
  intros phi Hneg Hpos id Hid. destruct (stat_cell id Hid) as (st & h & H1 & H2 & H3 & _).
  assert (forall lo hi b, contains_enlarged (eps * 1000) lo hi b -> forall p, in_closed lo hi p -> in_closed (bmin b) (bmax b) p) as Hce.
  { intros lo hi b Hb p (P1 & P2 & P3). apply Hb. split; [auto|]. split; [auto|]. intros d Hd. specialize (P3 d Hd). pose proof eps1000_pos. lra. }
  destruct (is_cell_ok Cfull id Hid) as (bf & Ef & Hf). destruct (is_cell_ok Cempty id Hid) as (be & Ee & He). destruct (is_cut_cell_ok id Hid) as (bc & Ecu & Hcu).
  fold (is_full_cell D id) in Ef. fold (is_empty_cell D id) in Ee. rewrite Ef, Ee, Ecu.
  assert (forall b (P : Prop) st', (b = true <-> stat id st') -> Ret b = Ret true -> st = st') as Hst.
  { intros b P st' Hb E. injection E as ->. eapply stat_fun; eauto. apply Hb; auto. }
  inversion H2 as [k b lo hi E1 E2 E3 EE|k b lo hi E1 E2 E3 EE|k lo hi tid st' e E1 E2 E3 c Hi]; subst.
  - exists lo, hi. split; auto. split; [|split].
    + intros Hn. split; [intros _ p Hp; eapply Hneg; eauto|]. intros Hx. apply (Hst be True Cempty He) in Hx. discriminate.
    + intros Hx. apply (Hst bc True Ccut Hcu) in Hx. discriminate.
    + intros Hx. apply H3 in Hx. discriminate.
  - exists lo, hi. split; auto. split; [|split].
    + intros Hn. split; [|intros _ p Hp; eapply Hpos; eauto]. intros Hx. apply (Hst bf True Cfull Hf) in Hx. discriminate.
    + intros Hx. apply (Hst bc True Ccut Hcu) in Hx. discriminate.
    + intros Hx. apply H3 in Hx. discriminate.
  - exists lo, hi. split; auto. split; [|split].
    + intros Hn. exfalso. apply Hn. now apply H3.
    + intros _. now apply H3.
    + intros _. eauto.
Qed.

(** Facets *)
Definition fb_of (st : cstatus) (entry : option (list fstatus)) (p : fstatus -> bool) (fb : cstatus -> bool) (f : Z) : bool :=
  match entry with Some v => p (nth (Z.to_nat f) v Ffull) | None => fb st end.

Lemma facet_query_ok p fbk fb id f st : cell_id g id -> facet_id g f -> stat id st -> fbk = Ret (fb st) ->
  facet_query D p fbk id f = Ret (fb_of st (fm_find (d_fm D) id) p fb f).
Proof.
  intros Hid Hf Hst Hfb. unfold facet_id in Hf. unfold facet_query, nf. rewrite (df_grid _ _ _ _ _ _ HF). rewrite assert_true by lia.
  unfold fb_of. destruct (fm_find (d_fm D) id) as [v|] eqn:E; [|exact Hfb].
  destruct (stat_cell id Hid) as (st' & h & H1 & H2 & _). rewrite E in H2. apply cr_entry in H2 as (_ & _ & H2). destruct (H2 v eq_refl) as [Hl _].
  rewrite (at_ok _ _ Ffull) by lia. reflexivity.
Qed.

Definition only (st st' : cstatus) : bool := cstatus_eqb st' st.
Lemma is_cell_stat st st' id : cell_id g id -> stat id st' -> tree_is_cell (d_grid D) (d_tree D) st id = Ret (only st st').
Proof.
  intros H H1. destruct (is_cell_ok st id H) as (b & -> & Hb). f_equal. unfold only.
  apply eq_iff_eq_true. rewrite cstatus_eqb_eq, Hb. split; [intros H2; eapply stat_fun; eauto|intros ->; auto].
Qed.

Lemma map_facets_ok p : exists l, map_facets D p = Ret l /\ NoDup l /\
  forall id f, In (id, f) l <-> facet_id g f /\ exists v, fm_find (d_fm D) id = Some v /\ p (nth (Z.to_nat f) v Ffull) = true.
Proof.
  unfold map_facets. pose proof (df_keys _ _ _ _ _ _ HF) as Hk.
  assert (forall id v, In (id, v) (d_fm D) -> length v = nf D) as Hlen.
  { intros id v Hin. pose proof (fm_find_some _ _ _ Hk Hin) as Ef.
    assert (cell_id g id) as Hid by (apply (df_keys_in _ _ _ _ _ _ HF); apply in_map_iff; exists (id, v); auto).
    destruct (stat_cell id Hid) as (st' & h & H1 & H2 & _). rewrite Ef in H2. apply cr_entry in H2 as (_ & _ & H2). destruct (H2 v eq_refl) as [Hl _].
    unfold nf. rewrite (df_grid _ _ _ _ _ _ HF). exact Hl. }
  rewrite (concatM_ok _ (fun e => map (fun f => (fst e, Z.of_nat f)) (filter (fun f => p (nth f (snd e) Ffull)) (seq 0 (nf D))))).
  2:{ intros [id v] Hin. cbn [fst snd]. rewrite (filterM_ok _ (fun f => p (nth f v Ffull))); [reflexivity|].
      intros f Hf. apply in_seq in Hf. rewrite (at_ok _ _ Ffull) by (rewrite (Hlen _ _ Hin); lia). cbn [bind]. now rewrite Nat2Z.id. }
  eexists. split; [reflexivity|]. split.
  - clear Hlen. revert Hk. generalize (d_fm D) as m. induction m as [|[id v] m IH]; simpl; intros Hk; [constructor|].
    inversion Hk as [|? ? Hni Hk']; subst. apply NoDup_app_own; auto.
    + apply FinFun.Injective_map_NoDup; [|apply NoDup_filter, seq_NoDup]. intros a b E. injection E as E. lia.
    + intros [i f] H1 H2. apply in_map_iff in H1 as (f0 & E & _). injection E as <- _.
      apply in_flat_map in H2 as ([id' v'] & Hin & H2). apply in_map_iff in H2 as (f1 & E & _). cbn [fst] in E. injection E as <- _.
      apply Hni. apply in_map_iff. exists (id', v'); auto.
  - intros id f. rewrite in_flat_map. split.
    + intros ([id' v] & Hin & H). cbn [fst snd] in H. apply in_map_iff in H as (f0 & E & Hf0). injection E as <- <-.
      apply filter_In in Hf0 as [Hs Hp]. apply in_seq in Hs. unfold facet_id, nf in *. rewrite (df_grid _ _ _ _ _ _ HF) in Hs. split; [lia|].
      exists v. split; [now apply fm_find_some|]. now rewrite Nat2Z.id.
    + intros (Hf & v & Ev & Hp). unfold facet_id in Hf. exists (id, v). split; [now apply fm_find_in|]. cbn [fst snd]. apply in_map_iff.
      exists (Z.to_nat f). split; [f_equal; lia|]. apply filter_In. split; [|auto]. apply in_seq. unfold nf. rewrite (df_grid _ _ _ _ _ _ HF). lia.
Qed.

Lemma all_facets_in id i f : In (i, f) (all_facets_of D id) <-> i = id /\ facet_id g f.
Proof.
  unfold all_facets_of, facet_id, nf. rewrite (df_grid _ _ _ _ _ _ HF), in_map_iff. split.
  - intros (k & E & Hk). injection E as <- <-. apply in_seq in Hk. split; auto. lia.
  - intros [-> Hf]. exists (Z.to_nat f). split; [f_equal; lia|]. apply in_seq. lia.
Qed.
Lemma all_facets_nd id : NoDup (all_facets_of D id).
Proof. apply FinFun.Injective_map_NoDup; [|apply seq_NoDup]. intros a b E. injection E as E. lia. Qed.
Lemma flat_map_nd {A B} (f : A -> list B) l : NoDup l -> (forall a, NoDup (f a)) -> (forall a b x, In x (f a) -> In x (f b) -> a = b) -> NoDup (flat_map f l).
Proof.
  intros Hn Hf Hd. induction Hn as [|a l Ha Hn IH]; simpl; [constructor|]. apply NoDup_app_own; auto.
  intros x H1 H2. apply in_flat_map in H2 as (b & Hb & H2). rewrite (Hd _ _ _ H1 H2) in Ha. contradiction.
Qed.

(** The combined statement for one kind of facet list. *)
Notation list_matches := (list_agrees g).

Lemma map_list_matches p q : (forall id f, q id f = facet_query D p (Ret false) id f) -> list_matches (map_facets D p) q.
Proof.
  intros Hq. destruct (map_facets_ok p) as (l & H1 & H2 & H3). exists l. split; auto. split; auto. split.
  - intros id f Hin. apply H3 in Hin as (Hf & v & Hv & _). split; auto. apply (df_keys_in _ _ _ _ _ _ HF). apply fm_find_in in Hv. apply in_map_iff. exists (id, v); auto.
  - intros id f Hid Hf. destruct (stat_cell id Hid) as (st & h & Hs & _). rewrite Hq.
    rewrite (facet_query_ok p (Ret false) (fun _ => false) id f st) by auto. eexists. split; [reflexivity|]. rewrite H3.
    unfold fb_of. destruct (fm_find (d_fm D) id) as [v|]; split.
    + eauto. + intros (_ & v' & E & Hp). injection E as <-. auto. + discriminate. + intros (_ & v' & E & _); discriminate.
Qed.

Lemma C20_empty : list_matches (get_empty_facets D) (is_empty_facet D).
Proof.
  unfold get_empty_facets. destruct (cells_ok Cempty) as (E & E1 & E2 & E3 & E4). rewrite E1. cbn [bind].
  destruct (map_facets_ok st_is_empty) as (l & H1 & H2 & H3). rewrite H1. cbn [bind].
  assert (forall id, stat id Cempty -> fm_find (d_fm D) id = None) as Hnone.
  { intros id Hs. destruct (stat_cell id (stat_valid _ _ Hs)) as (st & h & Hs1 & Hc1 & _). rewrite (stat_fun _ _ _ Hs1 Hs) in Hc1.
    destruct (fm_find (d_fm D) id) as [v|]; auto. apply cr_entry in Hc1 as (_ & _ & Hc1). destruct (Hc1 v eq_refl) as [_ [?|[? _]]]; discriminate. }
  eexists. split; [reflexivity|]. split; [|split].
  - apply NoDup_app_own; auto.
    + apply flat_map_nd; [now apply sorted_lt_nodup|apply all_facets_nd|]. intros a b [i f] Ha Hb. apply all_facets_in in Ha, Hb. destruct Ha, Hb; congruence.
    + intros [id f] Hx Hy. apply in_flat_map in Hx as (a & Ha & Hx). apply all_facets_in in Hx as [-> Hf]. apply E4 in Ha.
      apply H3 in Hy as (_ & v & Hv & _). rewrite (Hnone _ Ha) in Hv. discriminate.
  - intros id f. rewrite in_app_iff, in_flat_map. intros [(a & Ha & Hx)|Hx].
    + apply all_facets_in in Hx as [-> Hf]. apply E4 in Ha. split; auto. eapply stat_valid; eauto.
    + apply H3 in Hx as (Hf & v & Hv & _). split; auto. apply (df_keys_in _ _ _ _ _ _ HF). apply fm_find_in in Hv. apply in_map_iff. exists (id, v); auto.
  - intros id f Hid Hf. destruct (stat_cell id Hid) as (st & h & Hs & _). unfold is_empty_facet.
    rewrite (facet_query_ok _ _ (only Cempty) id f st) by (auto; apply is_cell_stat; auto). eexists. split; [reflexivity|].
    rewrite in_app_iff, in_flat_map, H3. unfold fb_of. destruct (fm_find (d_fm D) id) as [v|] eqn:Ev; split.
    + intros Hp. right. eauto.
    + intros [(a & Ha & Hx)|(_ & v' & E' & Hp)]; [|injection E' as <-; auto]. apply all_facets_in in Hx as [<- _]. apply E4 in Ha. apply Hnone in Ha. congruence.
    + unfold only. rewrite cstatus_eqb_eq. intros ->. left. exists id. split; [now apply E4|]. now apply all_facets_in.
    + intros [(a & Ha & Hx)|(_ & v' & E' & _)]; [|discriminate]. apply all_facets_in in Hx as [<- _]. apply E4 in Ha. unfold only. apply cstatus_eqb_eq. eapply stat_fun; eauto.
Qed.

Lemma C20_full : list_matches (get_full_facets D) (is_full_facet D).
Proof.
  unfold get_full_facets. destruct (cells_ok Cfull) as (E & E1 & E2 & E3 & E4). 
  destruct (map_facets_ok st_is_full) as (l & H1 & H2 & H3). rewrite H1. cbn [bind]. rewrite E1. cbn [bind].
  set (fe := fun id => if fm_contains (d_fm D) id then [] else all_facets_of D id).
  assert (forall id i f, In (i, f) (fe id) <-> i = id /\ facet_id g f /\ fm_find (d_fm D) id = None) as Hfe.
  { intros id i f. unfold fe. destruct (fm_contains (d_fm D) id) eqn:Ec.
    - split; [intros []|]. intros (_ & _ & En'). apply fm_contains_in in Ec. apply in_map_iff in Ec as ([a b] & Ea & Hin). cbn [fst] in Ea. subst a.
      rewrite (fm_find_some _ _ _ (df_keys _ _ _ _ _ _ HF) Hin) in En'. discriminate.
    - rewrite all_facets_in. apply fm_contains_false in Ec. rewrite (fm_find_none _ _ Ec). tauto. }
  eexists. split; [reflexivity|]. split; [|split].
  - apply NoDup_app_own; auto.
    + apply flat_map_nd; [now apply sorted_lt_nodup| |].
      * intros a. unfold fe. destruct (fm_contains (d_fm D) a); [constructor|apply all_facets_nd].
      * intros a b [i f] Ha Hb. apply Hfe in Ha, Hb. destruct Ha, Hb; congruence.
    + intros [id f] Hy Hx. apply in_flat_map in Hx as (a & Ha & Hx). apply Hfe in Hx as (-> & Hf & Hno).
      apply H3 in Hy as (_ & v & Hv & _). congruence.
  - intros id f. rewrite in_app_iff, in_flat_map. intros [Hx|(a & Ha & Hx)].
    + apply H3 in Hx as (Hf & v & Hv & _). split; auto. apply (df_keys_in _ _ _ _ _ _ HF). apply fm_find_in in Hv. apply in_map_iff. exists (id, v); auto.
    + apply Hfe in Hx as (-> & Hf & _). apply E4 in Ha. split; auto. eapply stat_valid; eauto.
  - intros id f Hid Hf. destruct (stat_cell id Hid) as (st & h & Hs & _). unfold is_full_facet.
    rewrite (facet_query_ok _ _ (only Cfull) id f st) by (auto; apply is_cell_stat; auto). eexists. split; [reflexivity|].
    rewrite in_app_iff, in_flat_map, H3. unfold fb_of. destruct (fm_find (d_fm D) id) as [v|] eqn:Ev; split.
    + intros Hp. left. eauto.
    + intros [(_ & v' & E' & Hp)|(a & Ha & Hx)]; [injection E' as <-; auto|]. apply Hfe in Hx as (<- & _ & Hno). congruence.
    + unfold only. rewrite cstatus_eqb_eq. intros ->. right. exists id. split; [now apply E4|]. apply Hfe. auto.
    + intros [(_ & v' & E' & _)|(a & Ha & Hx)]; [discriminate|]. apply Hfe in Hx as (<- & _). apply E4 in Ha. unfold only. apply cstatus_eqb_eq. eapply stat_fun; eauto.
Qed.

Lemma C20_body : list_matches (get_empty_facets D) (is_empty_facet D) /\ list_matches (get_full_facets D) (is_full_facet D) /\
  list_matches (get_cut_facets D) (is_cut_facet D) /\ list_matches (get_full_unfitted_facets D) (is_full_unfitted_facet D) /\
  list_matches (get_unfitted_facets D) (has_unfitted_boundary D).
Proof.
  split; [apply C20_empty|]. split; [apply C20_full|]. repeat split; apply map_list_matches; reflexivity.
Qed.

Lemma query_total q : In q [is_full_facet D; is_empty_facet D; is_cut_facet D; is_full_unfitted_facet D; has_unfitted_boundary D; has_external_boundary D] ->
  forall id f, cell_id g id -> facet_id g f -> exists b, q id f = Ret b.
Proof.
  intros Hq id f Hid Hf. destruct (stat_cell id Hid) as (st & h & Hs & _).
  simpl in Hq. repeat (destruct Hq as [<-|Hq]; [eexists;
    first [ apply (facet_query_ok _ _ (only Cfull) id f st); auto; apply is_cell_stat; auto; fail
          | apply (facet_query_ok _ _ (only Cempty) id f st); auto; apply is_cell_stat; auto; fail
          | apply (facet_query_ok _ _ (fun _ => false) id f st); auto; fail ]|]); contradiction.
Qed.

(** C21 *)
Lemma C21_body : forall q cells facets,
  In q [is_full_facet D; is_empty_facet D; is_cut_facet D; is_full_unfitted_facet D; has_unfitted_boundary D] ->
  length cells = length facets -> Forall (cell_id g) cells -> Forall (facet_id g) facets ->
  exists l, get_facets_target q cells facets = Ret l /\
    l = filter (fun p => match q (fst p) (snd p) with Ret true => true | _ => false end) (combine cells facets).
Proof.
  intros q cells facets Hq Hl Hcs Hfs. eexists. split; [|reflexivity]. unfold get_facets_target.
  rewrite assert_true by now apply Nat.eqb_eq. apply filterM_ok. intros [id f] Hin. cbn [fst snd].
  rewrite Forall_forall in Hcs, Hfs.
  destruct (query_total q ltac:(simpl in *; tauto) id f) as (b & ->); [apply Hcs; eapply in_combine_l; eauto|apply Hfs; eapply in_combine_r; eauto|].
  now destruct b.
Qed.

(** C22: the four queries, given the status stored for the facet (or the status of the cell). *)
Lemma C22_body : forall id f, cell_id g id -> facet_id g f ->
  exists a b c d u e, is_full_facet D id f = Ret a /\ is_empty_facet D id f = Ret b /\ is_cut_facet D id f = Ret c /\
    is_full_unfitted_facet D id f = Ret d /\ has_unfitted_boundary D id f = Ret u /\ has_external_boundary D id f = Ret e /\
    (* at most one *)
    ((if a then 1 else 0) + (if b then 1 else 0) + (if c then 1 else 0) + (if d then 1 else 0) <= 1) /\
    (* none exactly when the only contribution is a piece of unfitted boundary *)
    ((if a then 1 else 0) + (if b then 1 else 0) + (if c then 1 else 0) + (if d then 1 else 0) = 0 <->
        exists v, fm_find (d_fm D) id = Some v /\ (nth (Z.to_nat f) v Ffull = Funf \/ nth (Z.to_nat f) v Ffull = Funf_ext)).
Proof.
  intros id f Hid Hf. destruct (stat_cell id Hid) as (st & h & Hs & Hcr & _).
  unfold is_full_facet, is_empty_facet.
  rewrite (facet_query_ok _ (is_full_cell D id) (only Cfull) id f st) by (auto; apply is_cell_stat; auto).
  rewrite (facet_query_ok _ (is_empty_cell D id) (only Cempty) id f st) by (auto; apply is_cell_stat; auto).
  unfold is_cut_facet, is_full_unfitted_facet, has_unfitted_boundary, has_external_boundary.
  rewrite !(fun p => facet_query_ok p (Ret false) (fun _ => false) id f st Hid Hf Hs eq_refl).
  do 6 eexists. do 6 (split; [reflexivity|]). unfold fb_of. destruct (fm_find (d_fm D) id) as [v|] eqn:Ev.
  - split; [destruct (nth (Z.to_nat f) v Ffull); cbn; lia|]. split.
    + destruct (nth (Z.to_nat f) v Ffull) eqn:En'; cbn; try lia; intros; exists v; auto.
    + intros (v' & E & Hv). injection E as <-. destruct Hv as [-> | ->]; reflexivity.
  - assert (st = Cfull \/ st = Cempty) as [-> | ->];
      [|cbn; split; [lia|split; [lia|intros (v & E & _); discriminate]]|cbn; split; [lia|split; [lia|intros (v & E & _); discriminate]]].
    apply cr_entry in Hcr as (H1 & H2 & _). destruct st; auto; [|congruence]. destruct (H2 eq_refl); congruence.
Qed.

(** C23 *)
Lemma C23_body : forall id, cell_id g id ->
  exists cu, is_cell_with_unf_bdry D id = Ret cu /\
   (is_full_with_unf_bdry_cell D id = true <-> is_full_cell D id = Ret true /\ exists f, facet_id g f /\ is_full_facet D id f = Ret false) /\
   (cu = true <-> is_cut_cell D id = Ret true \/ is_full_with_unf_bdry_cell D id = true) /\
   (cu = true -> is_empty_cell D id = Ret false).
Proof.
  intros id Hid. destruct (stat_cell id Hid) as (st & h & Hs & Hcr & _).
  assert (is_full_cell D id = Ret (only Cfull st)) as E1 by (apply is_cell_stat; auto).
  assert (is_empty_cell D id = Ret (only Cempty st)) as E2 by (apply is_cell_stat; auto).
  assert (is_cut_cell D id = Ret (only Ccut st)) as E3.
  { destruct (is_cut_cell_ok id Hid) as (b & -> & Hb). f_equal. apply eq_iff_eq_true. unfold only. rewrite cstatus_eqb_eq, Hb.
    split; [intros H2; eapply stat_fun; eauto|intros ->; auto]. }
  unfold is_cell_with_unf_bdry. rewrite E1, E2, E3. cbn [bind]. eexists. split; [reflexivity|].
  assert (is_full_with_unf_bdry_cell D id = true <-> st = Cfull /\ exists v, fm_find (d_fm D) id = Some v) as Hfu.
  { unfold is_full_with_unf_bdry_cell. rewrite andb_true_iff, mem_z_in, fm_contains_in, (df_fu _ _ _ _ _ _ HF).
    assert (In id (map fst (d_fm D)) <-> exists v, fm_find (d_fm D) id = Some v) as Hk.
    { split.
      - intros Hi. apply in_map_iff in Hi as ([a v] & Ea & Hin). cbn [fst] in Ea; subst a. exists v. apply fm_find_some; auto. apply (df_keys _ _ _ _ _ _ HF).
      - intros (v & Hv). apply fm_find_in in Hv. apply in_map_iff. exists (id, v); auto. }
    rewrite Hk. split.
    - intros (Hv & _ & Hno). split; auto. destruct Hv as (v & Hv). rewrite Hv in Hcr. apply cr_entry in Hcr as (_ & _ & Hcr). destruct (Hcr v eq_refl) as [_ [->|[? _]]]; auto.
      exfalso. apply Hno. destruct Hs as (x & Hx & ->). eauto.
    - intros [-> Hv]. split; auto. split; auto. intros (x & Hx & ->). assert (Cfull = Ccut) by (eapply stat_fun; eauto; exists x; auto). discriminate. }
  split; [|split].
  - rewrite Hfu. split.
    + intros (-> & v & Hv). split; auto. rewrite Hv in Hcr. apply cr_entry in Hcr as (_ & _ & Hcr). destruct (Hcr v eq_refl) as [Hl [?|[_ Hall]]]; [discriminate|].
      assert (exists k, (k < length v)%nat /\ is_Ffull (nth k v Ffull) = false) as (k & Hk & Hk').
      { clear -Hall. induction v as [|a v IH]; simpl in Hall; [discriminate|]. destruct (is_Ffull a) eqn:Ea.
        - destruct (IH Hall) as (k & Hk & Hk'). exists (S k). simpl. split; [lia|auto].
        - exists O. simpl. split; [lia|auto]. }
      exists (Z.of_nat k). assert (facet_id g (Z.of_nat k)) as Hf by (unfold facet_id; lia). split; [auto|].
      unfold is_full_facet. rewrite (facet_query_ok _ _ (only Cfull) id _ Cfull) by (auto; apply is_cell_stat; auto). rewrite Hv. unfold fb_of. rewrite Nat2Z.id. f_equal. exact Hk'.
    + intros (E & f & Hf & Hq). injection E as E. unfold only in E. apply cstatus_eqb_eq in E. subst st. split; auto.
      unfold is_full_facet in Hq. rewrite (facet_query_ok _ _ (only Cfull) id _ Cfull) in Hq by (auto; apply is_cell_stat; auto).
      unfold fb_of in Hq. destruct (fm_find (d_fm D) id) as [v|]; eauto. discriminate.
  - rewrite orb_true_iff. split; (intros [H|H]; [left|right; exact H]); congruence.
  - rewrite orb_true_iff. unfold only. rewrite cstatus_eqb_eq. intros [->|H]; auto. apply Hfu in H as [-> _]. reflexivity.
Qed.
End Dom.

Lemma every_cell_lemma : forall g sign ccell cfacet D s, built g sign ccell cfacet D s ->
  forall id, cell_id g id -> exists st h,
    cell_result g sign ccell cfacet id h st (fm_find (d_fm D) id) /\ (h = by_cell <-> In id (cs_classified s)) /\
    is_full_cell D id = Ret (cstatus_eqb st Cfull) /\ is_empty_cell D id = Ret (cstatus_eqb st Cempty) /\
    is_cut_cell D id = Ret (cstatus_eqb st Ccut).
Proof.
  intros g sign ccell cfacet D s HB id Hid. destruct (stat_cell _ _ _ _ _ _ HB id Hid) as (st & h & Hs & Hcr & Hcls & Hfl).
  exists st, h. split; auto. split; auto. split; [apply (is_cell_stat _ _ _ _ _ _ HB); auto|]. split; [apply (is_cell_stat _ _ _ _ _ _ HB); auto|].
  destruct (is_cut_cell_ok _ _ _ _ _ _ HB id Hid) as (b & -> & Hb). f_equal. apply eq_iff_eq_true. rewrite cstatus_eqb_eq, Hb.
  split; [intros H2; eapply (stat_fun _ _ _ _ _ _ HB); eauto|intros ->; auto].
Qed.

Lemma C17_lemma : forall g sign ccell cfacet order, usable_grid g -> map_order order ->
  exists D s, build_domain g sign ccell cfacet None order = Ret (D, s) /\
    1 <= Z.of_nat (cs_signs s) <= 2 * num_cells g - 1 /\
    Z.of_nat (length (cs_classified s)) <= num_cells g /\ NoDup (cs_classified s).
Proof.
  intros g sign ccell cfacet order Hu Ho. destruct (build_domain_ok g sign ccell cfacet order Hu Ho) as (D & s & E & HF).
  exists D, s. destruct HF. auto.
Qed.

Lemma C19_lemma : forall r st t, set_status (Leaf r Cunknown) st = Ret t -> get_status t = Abort.
Proof.
  intros r st t H. destruct st; cbn in H; unfold assert_ in H; try (injection H as <-; reflexivity).
  destruct (sub_is_unique r); [injection H as <-; reflexivity|discriminate].
Qed.
Lemma C19_partial_lemma : forall g r st t id, set_status (Leaf r Cunknown) st = Ret t -> in_range_flat r id (num_cells_dir g) = Ret true ->
  find_leaf g t id = Ret st.
Proof.
  intros g r st t id H Hr. assert (t = Leaf r st) as ->.
  { destruct st; cbn in H; unfold assert_ in H; try (injection H as <-; reflexivity).
    destruct (sub_is_unique r); [injection H as <-; reflexivity|discriminate]. }
  cbn [find_leaf]. unfold is_in_tree. cbn [tree_range]. rewrite Hr. reflexivity.
Qed.
