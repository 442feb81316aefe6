(** Property C76: the normals on the facets when default-constructed points are not zero. *)
From Coq Require Import Reals ZArith List Lia Lra.
From Verif Require Import M_Quad S_Quad S_Domain S_Grid L_Real L_QuadTP L_Quad L_QuadProps L_QuadRun L_Domain L_DomainQ L_DomainT.
Import ListNotations.
Local Open Scope R_scope.

(** impl_quadrature.cpp 371-372 declares the normal without initialising it and sets one component: the other components are those of a default-constructed
    point.  Algoim's uvector is default-constructed without initialisation, so they can have any value.  A domain with a facet on the unfitted boundary and a
    content (0, 5) of the memory for which the code returns the normal (-1, 5) on a facet of direction 0, for every number of points and every table. *)
Theorem C76_indeterminate_refuted : forall table, Z.of_nat (length table) = n_entries ->
  exists g sign ccell cfacet D s id o, built g sign ccell cfacet D s /\ length (breaks g) = 2%nat /\ cell_id g id /\ has_unfitted_boundary D id 0 = Ret true /\
  length (fresh_point o) = 2%nat /\
  forall n, (1 <= n <= n_max)%Z -> exists q, value (create_unfitted_bound table o D [id] n true false statics0) = Ret q /\ In [-1; 5] (uq_nrm q).
Proof.
  intros table Htab.
  destruct (demo_built (fun _ _ => Sund) (fun _ => Tcut) (fun _ _ _ => Ffull_unf)) as (g & D & s & HB & Hn & Hb).
  set (o := mk_alg (fun _ => 1) (fun _ => [1; 0]) false (fun _ _ => []) (fun _ _ => []) (fun _ _ _ _ => []) (fun _ _ => 0) (fun _ _ => []) (fun _ _ _ => 0) (fun _ _ => []) (fun _ _ => []) (fun _ _ _ => []) [0; 5]).
  do 4 eexists. exists D, s, 0%Z, o. split; [exact HB|].
  assert (cell_id g 0) as Hid by (unfold cell_id; lia). assert (forall f, (0 <= f < 4)%Z -> facet_id g f) as Hf by (intros; unfold facet_id; lia).
  split; [exact Hb|]. split; [exact Hid|].
  destruct (stat_cell _ _ _ _ _ _ HB 0%Z Hid) as (st & h & Hs & Hcr & Hcls & Hfl).
  assert (st = Ccut /\ exists v, fm_find (d_fm D) 0 = Some v /\ (forall f, (f < 4)%nat -> nth f v Ffull = Ffull_unf)) as (Est & v & Ev & Env).
  { inversion Hcr as [k b lo hi E1 E2 E3 EE|k b lo hi E1 E2 E3 EE|k lo hi tid st' e E1 E2 E3 c [Hi1 Hi2]]; subst; try discriminate.
    rewrite Hi2. split; [reflexivity|]. cbn. eexists. split; [reflexivity|]. rewrite Hb. intros [|[|[|[|f]]]]; try reflexivity; lia. }
  assert (forall f, (0 <= f < 4)%Z -> has_unfitted_boundary D 0 f = Ret true /\ is_full_unfitted_facet D 0 f = Ret true) as Hu.
  { intros f Hr. unfold has_unfitted_boundary, is_full_unfitted_facet. rewrite !(facet_query_ok _ _ _ _ _ _ HB _ (Ret false) (fun _ => false) 0%Z f st Hid (Hf f Hr) Hs eq_refl). rewrite Ev. unfold fb_of. rewrite Env by lia. split; reflexivity. }
  split; [apply Hu; lia|]. split; [reflexivity|]. intros n Hr.
  pose proof (df_grid _ _ _ _ _ _ (built_facts _ _ _ _ _ _ HB)) as Hg.
  assert (Hd : dimD D = 2%nat) by (unfold dimD; rewrite Hg; exact Hb).
  rewrite value_out. rewrite (proj1 (create_unf_ok table Htab o D [0%Z] n true false statics0 (or_introl Hd) (reachable_valid table Htab _ _ (or_introl Hd) (reach_start _ _)))).
  rewrite assert_true by lia. cbn [mapM].
  destruct (create_01_ok table Htab 1 n ltac:(lia) Hr) as (r & Er & Lr).
  assert (Chunk : forall f, (0 <= f < 4)%Z -> bdry_chunk table o D 0 f n = Ret (map (fun nw : list R * R => ((add_component (fst nw) (Z.to_nat (f / 2)) (facet_coord (f mod 2)), snd nw), set_nth (Z.to_nat (f / 2)) (if (f mod 2 =? 0)%Z then - (1) else 1) [0; 5])) r)).
  { intros f Hr4. unfold bdry_chunk. destruct (Hu f Hr4) as [-> E2]. cbn [bind negb]. unfold iso_chunk. rewrite Hd. rewrite !assert_true by lia. rewrite E2. cbn [bind andb Nat.sub]. rewrite Er. cbn [bind].
    unfold facet_const_dir, facet_side. rewrite !assert_true by lia. reflexivity. }
  assert (All : exists c, unf_chunk table o D n true false 0 = Ret (map (fun nw : list R * R => ((add_component (fst nw) 0 (facet_coord 0), snd nw), [-(1); 5])) r ++ c)).
  { destruct (C23_body _ _ _ _ _ _ HB 0%Z Hid) as (cu & Ecu & _ & Hcu & _).
    assert (is_cut_cell D 0 = Ret true) as Ecut.
    { destruct (is_cut_cell_ok _ _ _ _ _ _ HB 0%Z Hid) as (b & Eb & Hb'). rewrite Eb. f_equal. apply Hb'. rewrite <- Est. exact Hs. }
    assert (cu = true) as -> by (apply Hcu; left; exact Ecut).
    destruct (cell_box table g 0%Z (proj1 HB) Hid) as (lo & hi & Ebox & _).
    unfold unf_chunk. rewrite !assert_true by lia. rewrite Ecu. cbn [bind negb]. rewrite Ecut. cbn [bind]. rewrite Hg, Ebox. cbn [bind].
    unfold purge_all. rewrite Hd. change (zseq (Z.of_nat 2 * 2)) with [0; 1; 2; 3]%Z. cbn [foldM].
    assert (Pred : forall f, (0 <= f < 4)%Z -> exists p, unf_pred o D 0 f = Ret p).
    { intros f Hr4. unfold unf_pred. rewrite (proj1 (Hu f Hr4)). cbn [bind negb andb]. unfold has_external_boundary.
      rewrite (facet_query_ok _ _ _ _ _ _ HB _ (Ret false) (fun _ => false) 0%Z f st Hid (Hf f Hr4) Hs eq_refl). cbn [bind].
      unfold facet_const_dir, facet_side. rewrite Hd. rewrite !assert_true by lia. cbn [bind]. rewrite ?Hg, Ebox. eexists. reflexivity. }
    change (srf_nodes o (mk_box lo hi) n) with (@nil ((list R * R) * list R)).
    destruct (Pred 0%Z ltac:(lia)) as (p0 & P0). destruct (Pred 1%Z ltac:(lia)) as (p1 & P1). destruct (Pred 2%Z ltac:(lia)) as (p2 & P2). destruct (Pred 3%Z ltac:(lia)) as (p3 & P3).
    rewrite (proj1 (Hu 0%Z ltac:(lia))), (proj1 (Hu 1%Z ltac:(lia))), (proj1 (Hu 2%Z ltac:(lia))), (proj1 (Hu 3%Z ltac:(lia))). cbn [bind]. rewrite P0. cbn [bind filter]. rewrite P1. cbn [bind filter]. rewrite P2. cbn [bind filter]. rewrite P3. cbn [bind filter].
    unfold bdry_all. rewrite Hd. change (zseq (Z.of_nat 2 * 2)) with [0; 1; 2; 3]%Z. cbn [mapM].
    rewrite (proj1 (Hu 0%Z ltac:(lia))), (proj1 (Hu 1%Z ltac:(lia))), (proj1 (Hu 2%Z ltac:(lia))), (proj1 (Hu 3%Z ltac:(lia))). cbn [bind negb].
    rewrite (Chunk 0%Z ltac:(lia)), (Chunk 1%Z ltac:(lia)), (Chunk 2%Z ltac:(lia)), (Chunk 3%Z ltac:(lia)). cbn [bind concat app].
    eexists. reflexivity. }
  destruct All as (c & ->). cbn [bind]. eexists. split; [reflexivity|]. cbn [uq_nrm map concat]. rewrite app_nil_r, map_app, map_map. cbn [snd].
  apply in_or_app. left. destruct r as [|nw r]; [exfalso; unfold zpow in Lr; cbn [length repeat fold_right] in Lr; lia|]. left. reflexivity.
Qed.
Print Assumptions C76_indeterminate_refuted.
