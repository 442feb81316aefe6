From Verif Require Import M_Quad S_Quad L_Real L_Domain L_DomainQ L_DomainT L_QuadTP L_Quad.
From Coq Require Import Lra.
Open Scope R_scope.

(** ** The Gauss rules and the static variables *)
Section Run.
Context (table : list R) (Htab : Z.of_nat (length table) = n_entries).

Lemma create_01_bounds dim n g : create_01 table dim n = Ret g -> (0 <= n <= n_max)%Z.
Proof. unfold create_01. intros H. apply assert_inv in H as [H _]. lia. Qed.
Lemma create_01_nz dim n g : create_01 table dim n = Ret g -> (1 <= dim <= 3)%nat -> (1 <= n <= n_max)%Z.
Proof.
  intros H Hd. pose proof (create_01_bounds _ _ _ H). destruct (Z.eq_dec n 0) as [->|]; [|lia].
  unfold create_01 in H. apply assert_inv in H as [_ H]. unfold create_tp in H. apply assert_inv in H as [_ H].
  destruct dim as [|[|[|[|dim]]]]; try lia; cbn in H; discriminate.
Qed.
Definition zpow (n : Z) (dim : nat) : Z := fold_right Z.mul 1%Z (repeat n dim).
Lemma create_01_ok dim n : (1 <= dim <= 3)%nat -> (1 <= n <= n_max)%Z -> exists g, create_01 table dim n = Ret g /\ Z.of_nat (length g) = zpow n dim.
Proof.
  intros Hd Hn. unfold create_01. rewrite assert_true by lia.
  assert (exists m : nat, n = Z.of_nat m /\ (1 <= m)%nat /\ (Z.of_nat m <= n_max)%Z) as (m & -> & H1 & H2) by (exists (Z.to_nat n); lia).
  destruct dim as [|[|[|[|dim]]]]; try lia; cbn [repeat].
  - destruct (C33_1d_lemma table (unit_box 1) m) as (q & E & Hl & _); auto. exists q. split; [exact E|]. cbn. lia.
  - destruct (C33_2d_lemma table (unit_box 2) m m) as (q & E & Hl & _); auto. exists q. split; [exact E|]. unfold zpow. cbn [repeat fold_right]. rewrite Hl. lia.
  - destruct (C33_3d_lemma table (unit_box 3) m m m) as (q & E & Hl & _); auto. exists q. split; [exact E|]. unfold zpow. cbn [repeat fold_right]. rewrite Hl. lia.
Qed.
Lemma zpow_inj dim n m : (1 <= dim <= 3)%nat -> (0 <= n)%Z -> (0 <= m)%Z -> zpow n dim = zpow m dim -> n = m.
Proof.
  intros Hd Hn Hm. assert (zpow n dim = n ^ Z.of_nat dim /\ zpow m dim = m ^ Z.of_nat dim)%Z as [-> ->].
  { destruct dim as [|[|[|[|dim]]]]; try lia; unfold zpow; cbn [repeat fold_right];
    change (Z.of_nat 1) with 1%Z; change (Z.of_nat 2) with 2%Z; change (Z.of_nat 3) with 3%Z; split; ring. }
  intros H. destruct (Z.lt_trichotomy n m) as [L|[E|L]]; auto; exfalso.
  - pose proof (Z.pow_lt_mono_l n m (Z.of_nat dim)). lia.
  - pose proof (Z.pow_lt_mono_l m n (Z.of_nat dim)). lia.
Qed.

Definition valid_cache (dim : nat) (c : option rule) : Prop := match c with None => True | Some g => exists m, create_01 table dim m = Ret g end.
Lemma lookup_ok dim n c : (1 <= dim <= 3)%nat -> (0 < n)%Z -> valid_cache dim c -> gauss_lookup table dim n (zpow n dim) c = create_01 table dim n.
Proof.
  intros Hd Hn Hv. unfold gauss_lookup.
  assert (forall g m, create_01 table dim m = Ret g -> (1 <= m <= n_max)%Z /\ Z.of_nat (length g) = zpow m dim) as Hg.
  { intros g m H. pose proof (create_01_nz _ _ _ H Hd) as Hm. split; auto. destruct (create_01_ok dim m Hd Hm) as (g' & E & Hl). congruence. }
  destruct c as [g|].
  - destruct Hv as [m Hm]. cbn [bind]. destruct (Hg _ _ Hm) as [Hb Hl].
    destruct (Z.eqb_spec (Z.of_nat (length g)) (zpow n dim)) as [E|E]; cbn [negb]; auto.
    rewrite Hl in E. apply zpow_inj in E; [|auto|lia|lia]. now subst.
  - destruct (create_01 table dim n) as [g| | |] eqn:E; cbn [bind]; auto.
    destruct (Hg _ _ E) as [Hb Hl]. rewrite Hl, Z.eqb_refl. reflexivity.
Qed.

Definition valid (dim : nat) (s : statics) : Prop := valid_cache dim (st_cell s) /\ valid_cache (dim - 1) (st_facet s).

(** ** Appending chunks *)
Definition add_cq (q : cells_quad) (c : rule) : cells_quad :=
  mk_cq (cq_cells q) (cq_n q ++ [Z.of_nat (length c)]) (cq_pts q ++ map fst c) (cq_wts q ++ map snd c).
Definition add_iq (q : iso_quad) (c : rule) : iso_quad :=
  mk_iq (iq_cells q) (iq_facets q) (iq_n q ++ [Z.of_nat (length c)]) (iq_pts q ++ map fst c) (iq_wts q ++ map snd c).
Notation node := ((list R * R) * list R)%type.
Definition add_uq (q : unf_quad) (c : list node) : unf_quad :=
  mk_uq (uq_cells q) (uq_n q ++ [Z.of_nat (length c)]) (uq_pts q ++ map (fun x => fst (fst x)) c) (uq_wts q ++ map (fun x => snd (fst x)) c) (uq_nrm q ++ map snd c).

Lemma keep_marks {A B} (f : A -> B) (P : A -> bool) (d : A) : forall c k ids,
  (forall j, (j < length c)%nat -> (In (k + Z.of_nat j)%Z ids <-> P (nth j c d) = true)) ->
  keep_from k ids (map f c) = map f (filter (fun x => negb (P x)) c).
Proof.
  induction c as [|x c IH]; intros k ids H; cbn [map keep_from filter]; auto.
  assert (keep_from (k + 1) ids (map f c) = map f (filter (fun x => negb (P x)) c)) as ->.
  { apply IH. intros j Hj. specialize (H (S j)). cbn [length nth] in H.
    replace (k + 1 + Z.of_nat j)%Z with (k + Z.of_nat (S j))%Z by lia. apply H. lia. }
  specialize (H O). cbn [length nth] in H. rewrite Z.add_0_r in H.
  destruct (in_dec Z.eq_dec k ids) as [Hin|Hin].
  - rewrite (proj1 (H ltac:(lia)) Hin). reflexivity.
  - destruct (P x) eqn:E; [exfalso; apply Hin, H; auto; lia|]. reflexivity.
Qed.

Lemma last_ids_in t n i : In i (last_ids t n) <-> (t - n <= i < t)%Z.
Proof.
  unfold last_ids, zseq. rewrite map_map, in_map_iff. split.
  - intros (j & <- & Hj). apply in_seq in Hj. lia.
  - intros H. exists (Z.to_nat (i - (t - n))). split; [lia|]. apply in_seq. lia.
Qed.
Lemma NoDup_map_own {A B} (f : A -> B) l : (forall x y, f x = f y -> x = y) -> NoDup l -> NoDup (map f l).
Proof.
  intros Hf. induction 1 as [|x l Hx Hl IH]; simpl; constructor; auto.
  intros Hin. apply in_map_iff in Hin as (y & E & Hy). apply Hf in E. now subst.
Qed.
Lemma last_ids_nodup t n : NoDup (last_ids t n).
Proof.
  unfold last_ids, zseq. apply NoDup_map_own; [intros; lia|]. apply NoDup_map_own; [intros; lia|]. apply seq_NoDup.
Qed.
Lemma filter_NoDup_own {A} (f : A -> bool) l : NoDup l -> NoDup (filter f l).
Proof. induction 1; simpl; [constructor|]. destruct (f x); auto. constructor; auto. rewrite filter_In. tauto. Qed.

(** The positions marked in the last slice. *)
Definition marks {A} (P : A -> bool) (d : A) (c : list A) (base : Z) : list Z :=
  filter (fun i => P (nth (Z.to_nat (i - base)) c d)) (last_ids (base + Z.of_nat (length c)) (Z.of_nat (length c))).
Lemma marks_in {A} (P : A -> bool) d c base j : (j < length c)%nat -> (In (base + Z.of_nat j)%Z (marks P d c base) <-> P (nth j c d) = true).
Proof.
  intros Hj. unfold marks. rewrite filter_In, last_ids_in. replace (Z.to_nat (base + Z.of_nat j - base)) with j by lia.
  split; [tauto|]. intros; split; auto. lia.
Qed.
Lemma marks_range {A} (P : A -> bool) d c base i : In i (marks P d c base) -> (base <= i < base + Z.of_nat (length c))%Z.
Proof. unfold marks. rewrite filter_In, last_ids_in. intros [H _]. lia. Qed.

Lemma erase_iso_chunk q c P d : length (iq_wts q) = length (iq_pts q) ->
  erase_iso (marks P d c (Z.of_nat (length (iq_pts q)))) (add_iq q c) = Ret (add_iq q (filter (fun x => negb (P x)) c)).
Proof.
  intros Hl. set (ids := marks P d c _).
  assert (forall i, In i ids -> (Z.of_nat (length (iq_pts q)) <= i < Z.of_nat (length (iq_pts q)) + Z.of_nat (length c))%Z) as Hr by (intros; eapply marks_range; eauto).
  destruct (C28_iso_lemma ids (add_iq q c)) as (q' & E & H1 & H2 & H3 & H4 & H5 & ns & n & H6 & H7).
  - apply filter_NoDup_own, last_ids_nodup.
  - cbn. now destruct (iq_n q).
  - apply Forall_forall. intros i Hi. cbn [add_iq iq_pts]. rewrite app_length, map_length. specialize (Hr i Hi). lia.
  - cbn. rewrite !app_length, !map_length. lia.
  - rewrite E. f_equal. cbn in H1, H2, H3, H4, H5, H6. apply app_inj_tail in H6 as [<- <-].
    rewrite keep_app, keep_none in H3 by (intros i Hi; specialize (Hr i Hi); lia).
    rewrite keep_app, keep_none in H4 by (intros i Hi; specialize (Hr i Hi); rewrite Hl; lia).
    rewrite (keep_marks fst P d) in H3 by (intros j Hj; rewrite Z.add_0_l; apply marks_in; auto).
    rewrite (keep_marks snd P d) in H4 by (intros j Hj; rewrite Hl, Z.add_0_l; apply marks_in; auto).
    destruct q'. cbn in *. subst. unfold add_iq. f_equal. f_equal. f_equal.
    rewrite !app_length, !map_length in H5. lia.
Qed.
Lemma erase_uq_chunk q c P d : length (uq_wts q) = length (uq_pts q) -> length (uq_nrm q) = length (uq_pts q) ->
  erase_unf (marks P d c (Z.of_nat (length (uq_pts q)))) (add_uq q c) = Ret (add_uq q (filter (fun x => negb (P x)) c)).
Proof.
  intros Hl Hl2. set (ids := marks P d c _).
  assert (forall i, In i ids -> (Z.of_nat (length (uq_pts q)) <= i < Z.of_nat (length (uq_pts q)) + Z.of_nat (length c))%Z) as Hr by (intros; eapply marks_range; eauto).
  destruct (C28_unf_lemma ids (add_uq q c)) as (q' & E & H1 & H3 & H4 & H8 & H5 & ns & n & H6 & H7).
  - apply filter_NoDup_own, last_ids_nodup.
  - cbn. now destruct (uq_n q).
  - apply Forall_forall. intros i Hi. cbn [add_uq uq_pts]. rewrite app_length, map_length. specialize (Hr i Hi). lia.
  - cbn. rewrite !app_length, !map_length. lia.
  - cbn. rewrite !app_length, !map_length. lia.
  - rewrite E. f_equal. cbn in H1, H3, H4, H5, H6, H8. apply app_inj_tail in H6 as [<- <-].
    rewrite keep_app, keep_none in H3 by (intros i Hi; specialize (Hr i Hi); lia).
    rewrite keep_app, keep_none in H4 by (intros i Hi; specialize (Hr i Hi); rewrite Hl; lia).
    rewrite keep_app, keep_none in H8 by (intros i Hi; specialize (Hr i Hi); rewrite Hl2; lia).
    rewrite (keep_marks _ P d) in H3 by (intros j Hj; rewrite Z.add_0_l; apply marks_in; auto).
    rewrite (keep_marks _ P d) in H4 by (intros j Hj; rewrite Hl, Z.add_0_l; apply marks_in; auto).
    rewrite (keep_marks _ P d) in H8 by (intros j Hj; rewrite Hl2, Z.add_0_l; apply marks_in; auto).
    destruct q'. cbn in *. subst. unfold add_uq. f_equal. f_equal. f_equal.
    rewrite !app_length, !map_length in H5. lia.
Qed.

(** ** Facets *)
Definition dimD (D : domain) : nat := length (breaks (d_grid D)).
Definition outside (o : alg) (dir side : Z) (point : list R) : bool :=
  if (side =? 0)%Z then is_negative tol_purge (nth (Z.to_nat dir) (grad o point) 0) else is_positive tol_purge (nth (Z.to_nat dir) (grad o point) 0).
Definition lift_pt (dom : bbox) (dir side : Z) (pt : list R) : list R := scale_from_01 dom (add_component pt (Z.to_nat dir) (facet_coord side)).
Definition iso_mark (o : alg) (dom : bbox) (dir side : Z) (pu pue pc : bool) (pt : list R) : bool :=
  if is_zero tol_purge (phi o (lift_pt dom dir side pt)) then
    (outside o dir side (lift_pt dom dir side pt) && pu) || (negb (outside o dir side (lift_pt dom dir side pt)) && pue)
  else pc.
Definition iso_pred (o : alg) (D : domain) (id f : Z) (pu pue pcut : bool) : outcome (list R -> bool) :=
  hu <- has_unfitted_boundary D id f ;;
  pc <- (if pcut then is_cut_facet D id f else Ret false) ;;
  if negb (pu && hu) && negb (pue && hu) && negb pc then Ret (fun _ => false) else
  dir <- facet_const_dir (Z.of_nat (dimD D)) f ;; side <- facet_side (Z.of_nat (dimD D)) f ;;
  dom <- get_cell_domain (d_grid D) id ;;
  Ret (iso_mark o dom dir side (pu && hu) (pue && hu) pc).

Lemma filter_true {A} (l : list A) : filter (fun _ => true) l = l.
Proof. induction l; simpl; congruence. Qed.
Lemma last_last {A} (l : list A) x d : last (l ++ [x]) d = x.
Proof. induction l as [|y l IH]; auto. simpl. destruct (l ++ [x]) eqn:E; [destruct l; discriminate|]. exact IH. Qed.
Lemma back_app l x : back_ (l ++ [x]) = Ret x.
Proof. unfold back_. destruct (l ++ [x]) eqn:E; [destruct l; discriminate|]. rewrite <- E, last_last. reflexivity. Qed.

Lemma purge_iso_chunk o D id f pu pue pcut q c : length (iq_wts q) = length (iq_pts q) ->
  purge_iso o D id f pu pue pcut (add_iq q c) = (p <- iso_pred o D id f pu pue pcut ;; Ret (add_iq q (filter (fun nw => negb (p (fst nw))) c))).
Proof.
  intros Hl. unfold purge_iso, iso_pred. rewrite bind_assoc. apply bind_ext. intros hu _. rewrite bind_assoc. apply bind_ext. intros pc _.
  destruct (negb (pu && hu) && negb (pue && hu) && negb pc).
  { cbn [bind negb]. now rewrite filter_true. }
  rewrite ?bind_assoc. apply bind_ext. intros dir _. rewrite ?bind_assoc. apply bind_ext. intros side _. rewrite ?bind_assoc. apply bind_ext. intros dom _.
  unfold add_iq at 1. cbn [iq_n]. rewrite back_app. cbn [bind].
  set (P := fun nw : list R * R => iso_mark o dom dir side (pu && hu) (pue && hu) pc (fst nw)).
  rewrite (filterM_ok _ (fun i => P (nth (Z.to_nat (i - Z.of_nat (length (iq_pts q)))) c dpt))).
  - cbn [bind]. replace (Z.of_nat (length (iq_pts (add_iq q c)))) with (Z.of_nat (length (iq_pts q)) + Z.of_nat (length c))%Z by (cbn; rewrite app_length, map_length; lia).
    apply (erase_iso_chunk q c P dpt Hl).
  - intros i Hi. apply last_ids_in in Hi. cbn [iq_pts add_iq] in *. rewrite app_length, map_length in Hi.
    rewrite (at_ok _ _ []) by (rewrite app_length, map_length; lia). cbn [bind].
    rewrite app_nth2 by lia. replace (Z.to_nat i - length (iq_pts q))%nat with (Z.to_nat (i - Z.of_nat (length (iq_pts q)))) by lia.
    set (j := Z.to_nat _). assert (nth j (map fst c) [] = fst (nth j c dpt)) as -> by (change ([] : list R) with (fst dpt); apply map_nth).
    unfold P, iso_mark, lift_pt, outside. destruct (is_zero _ _); reflexivity.
Qed.

Definition facet_nodes (o : alg) (dom : bbox) (dir side f n : Z) : rule :=
  if is_bezier o then filter (fun nw => Rltb (bz_facet o dom f (fst nw)) 0) (map (fun nw => (permute_dirs (fst nw), snd nw)) (bz_fct o dom f n))
  else map (eval_iso (box_slice dom (Z.to_nat dir)) (Z.to_nat dir)) (alg_fct o dom dir side n).
Definition compute_chunk (o : alg) (D : domain) (id f n : Z) : outcome rule :=
  assert_ (0 <? n)%Z (
  cut <- is_cut_facet D id f ;;
  assert_ cut (
  if is_bezier o then dom <- get_cell_domain (d_grid D) id ;; Ret (facet_nodes o dom 0 0 f n)
  else dir <- facet_const_dir (Z.of_nat (dimD D)) f ;; side <- facet_side (Z.of_nat (dimD D)) f ;;
       dom <- get_cell_domain (d_grid D) id ;; Ret (facet_nodes o dom dir side f n))).
Lemma compute_facet_chunk o D id f n q : compute_facet o D id f n q = (c <- compute_chunk o D id f n ;; Ret (add_iq q c)).
Proof.
  unfold compute_facet, compute_chunk, facet_nodes. rewrite ?assert_bind. apply assert_ext. intros _. rewrite ?bind_assoc. apply bind_ext. intros cut _.
  rewrite ?assert_bind. apply assert_ext. intros _.
  assert (forall c : rule, Ret (mk_iq (iq_cells q) (iq_facets q) (iq_n q ++ [Z.of_nat (length (iq_pts q ++ map fst c)) - Z.of_nat (length (iq_pts q))]%Z) (iq_pts q ++ map fst c) (iq_wts q ++ map snd c)) = Ret (add_iq q c)) as Hc.
  { intros c. unfold add_iq. do 2 f_equal. f_equal. f_equal. rewrite app_length, map_length. lia. }
  destruct (is_bezier o).
  - rewrite ?bind_assoc. apply bind_ext. intros dom _. cbn [bind]. apply Hc.
  - rewrite ?bind_assoc. apply bind_ext. intros dir _. rewrite ?bind_assoc. apply bind_ext. intros side _. rewrite ?bind_assoc. apply bind_ext. intros dom _. cbn [bind]. apply Hc.
Qed.

Definition iso_chunk (o : alg) (D : domain) (id f n : Z) (ru rc : bool) : outcome rule :=
  assert_ (0 <=? id)%Z (assert_ ((0 <=? f) && (f <? Z.of_nat (dimD D) * 2))%Z (assert_ (0 <? n)%Z (
  fu <- is_full_unfitted_facet D id f ;;
  full <- (if fu then Ret true else is_full_facet D id f) ;;
  if full then if fu && ru then Ret [] else create_01 table (dimD D - 1) n
  else
    cut <- is_cut_facet D id f ;;
    some <- (if cut then Ret true else has_unfitted_boundary D id f) ;;
    if some then c <- compute_chunk o D id f n ;; p <- iso_pred o D id f ru true rc ;; Ret (filter (fun nw => negb (p (fst nw))) c)
    else Ret []))).

Lemma zpow2 n dim : (dim = 2 \/ dim = 3)%nat -> (n * n * (if Nat.eqb dim 3 then n else 1))%Z = zpow n dim /\ (n * (if Nat.eqb dim 3 then n else 1))%Z = zpow n (dim - 1).
Proof. intros [-> | ->]; unfold zpow; cbn [repeat fold_right Nat.eqb Nat.sub]; split; ring. Qed.

Lemma create_facet_chunk o D id f n ru rc q s : (dimD D = 2 \/ dimD D = 3)%nat -> valid (dimD D) s -> length (iq_wts q) = length (iq_pts q) ->
  out (create_facet_quadrature table o D id f n ru rc q s) = (c <- iso_chunk o D id f n ru rc ;; Ret (add_iq q c)) /\
  (forall q' s', create_facet_quadrature table o D id f n ru rc q s = Ret (q', s') -> valid (dimD D) s').
Proof.
  intros Hd Hv Hl. unfold out, create_facet_quadrature, iso_chunk. fold (dimD D).
  assert (forall q, add_iq q [] = mk_iq (iq_cells q) (iq_facets q) (iq_n q ++ [0%Z]) (iq_pts q) (iq_wts q)) as E0.
  { intros. unfold add_iq. cbn. now rewrite !app_nil_r. }
  assert (1 <= dimD D - 1 <= 3)%nat as Hd1 by lia.
  split.
  - rewrite ?assert_bind. apply assert_ext. intros _. rewrite ?assert_bind. apply assert_ext. intros _. rewrite ?assert_bind. apply assert_ext. intros Hn.
    rewrite ?bind_assoc. apply bind_ext. intros fu _. rewrite ?bind_assoc. apply bind_ext. intros full _.
    destruct full.
    + destruct (fu && ru); cbn [bind fst]; [now rewrite E0|].
      rewrite (proj2 (zpow2 n (dimD D) Hd)). rewrite lookup_ok by (try apply Hv; lia).
      rewrite ?bind_assoc. destruct (create_01 table (dimD D - 1) n) as [g| | |] eqn:Eg; cbn [bind fst]; auto.
      destruct (create_01_ok (dimD D - 1) n) as (g' & Eg' & Hlen); [auto|eapply create_01_nz; eauto|].
      rewrite Eg' in Eg. injection Eg as ->. unfold add_iq. now rewrite Hlen.
    + rewrite ?bind_assoc. apply bind_ext. intros cut _. rewrite ?bind_assoc. apply bind_ext. intros some _. destruct some; [|cbn [bind fst]; now rewrite E0].
      rewrite ?bind_assoc. rewrite compute_facet_chunk, !bind_assoc. apply bind_ext. intros c _. cbn [bind].
      rewrite purge_iso_chunk by auto. rewrite ?bind_assoc. apply bind_ext. intros p _. reflexivity.
  - intros q' s' H. apply assert_inv in H as [_ H]. apply assert_inv in H as [_ H]. apply assert_inv in H as [Hn H].
    apply bind_inv in H as (fu & _ & H). apply bind_inv in H as (full & _ & H). destruct full.
    + destruct (fu && ru); [injection H as _ <-; auto|].
      rewrite (proj2 (zpow2 n (dimD D) Hd)) in H. rewrite lookup_ok in H by (try apply Hv; lia).
      apply bind_inv in H as (g & Eg & H). injection H as _ <-. split; [apply Hv|]. cbn. eauto.
    + apply bind_inv in H as (cut & _ & H). apply bind_inv in H as (some & _ & H). destruct some; [|injection H as _ <-; auto].
      apply bind_inv in H as (q1 & _ & H). apply bind_inv in H as (q2 & _ & H). injection H as _ <-; auto.
Qed.

(** Generic run over a list. *)
Lemma fold_chunks {I Q C} (step : I -> Q -> statics -> outcome (Q * statics)) (chunk : I -> outcome C) (add : Q -> C -> Q) (wf : Q -> Prop) (V : statics -> Prop) :
  (forall i q s, wf q -> V s -> out (step i q s) = (c <- chunk i ;; Ret (add q c)) /\ (forall q' s', step i q s = Ret (q', s') -> V s')) ->
  (forall q c, wf q -> wf (add q c)) ->
  forall l q s, wf q -> V s ->
    out (foldM (fun i qs => step i (fst qs) (snd qs)) l (q, s)) = (cs <- mapM chunk l ;; Ret (fold_left add cs q)) /\
    (forall q' s', foldM (fun i qs => step i (fst qs) (snd qs)) l (q, s) = Ret (q', s') -> V s').
Proof.
  intros Hstep Hwf. induction l as [|i l IH]; intros q s Hq Hs; cbn [foldM mapM].
  - split; [reflexivity|]. intros q' s' H. injection H as <- <-. auto.
  - cbn [fst snd]. destruct (Hstep i q s Hq Hs) as [Ho Hv]. destruct (step i q s) as [[q1 s1]| | |] eqn:E; cbn [out bind fst] in *.
    + destruct (chunk i) as [c| | |] eqn:Ec; cbn [bind] in *; try discriminate. injection Ho as ->.
      destruct (IH (add q c) s1) as [H1 H2]; [apply Hwf; auto|eapply Hv; eauto|]. split; [|auto].
      rewrite H1. rewrite bind_assoc. apply bind_ext. intros cs _. reflexivity.
    + destruct (chunk i) as [c| | |] eqn:Ec; cbn [bind] in *; try discriminate. split; [auto|intros; discriminate].
    + destruct (chunk i) as [c| | |] eqn:Ec; cbn [bind] in *; try discriminate. split; [auto|intros; discriminate].
    + destruct (chunk i) as [c| | |] eqn:Ec; cbn [bind] in *; try discriminate. split; [auto|intros; discriminate].
Qed.

Definition wf_iq (q : iso_quad) : Prop := length (iq_wts q) = length (iq_pts q).
Lemma wf_iq_add q c : wf_iq q -> wf_iq (add_iq q c).
Proof. unfold wf_iq. intros H. cbn. rewrite !app_length, !map_length. lia. Qed.

Definition int_chunk o D n (id f : Z) : outcome rule := ext <- is_exterior_facet D id f ;; if negb ext then iso_chunk o D id f n true false else Ret [].
Definition ext_chunk o D n (id f : Z) : outcome rule :=
  ext <- is_exterior_facet D id f ;; if ext then iso_chunk o D id f n false false else
  hu <- has_unfitted_boundary D id f ;; if hu then iso_chunk o D id f n false true else Ret [].

Lemma gen_int_ok o D n id f q s : (dimD D = 2 \/ dimD D = 3)%nat -> wf_iq q -> valid (dimD D) s ->
  out (gen_interior table o D n id f q s) = (c <- int_chunk o D n id f ;; Ret (add_iq q c)) /\ (forall q' s', gen_interior table o D n id f q s = Ret (q', s') -> valid (dimD D) s').
Proof.
  intros Hd Hq Hs. unfold gen_interior, int_chunk, out. split.
  - rewrite ?bind_assoc. apply bind_ext. intros ext _. destruct ext; cbn [negb].
    + cbn [bind fst]. unfold add_iq. cbn. now rewrite !app_nil_r.
    + apply create_facet_chunk; auto.
  - intros q' s' H. apply bind_inv in H as (ext & _ & H). destruct ext; cbn [negb] in H; [injection H as _ <-; auto|].
    eapply (proj2 (create_facet_chunk o D id f n true false q s Hd Hs Hq)); eauto.
Qed.
Lemma gen_ext_ok o D n id f q s : (dimD D = 2 \/ dimD D = 3)%nat -> wf_iq q -> valid (dimD D) s ->
  out (gen_exterior table o D n id f q s) = (c <- ext_chunk o D n id f ;; Ret (add_iq q c)) /\ (forall q' s', gen_exterior table o D n id f q s = Ret (q', s') -> valid (dimD D) s').
Proof.
  intros Hd Hq Hs. unfold gen_exterior, ext_chunk, out. split.
  - rewrite ?bind_assoc. apply bind_ext. intros ext _. destruct ext.
    + apply create_facet_chunk; auto.
    + rewrite ?bind_assoc. apply bind_ext. intros hu _. destruct hu; [apply create_facet_chunk; auto|].
      cbn [bind fst]. unfold add_iq. cbn. now rewrite !app_nil_r.
  - intros q' s' H. apply bind_inv in H as (ext & _ & H). destruct ext.
    + eapply (proj2 (create_facet_chunk o D id f n false false q s Hd Hs Hq)); eauto.
    + apply bind_inv in H as (hu & _ & H). destruct hu; [|injection H as _ <-; auto].
      eapply (proj2 (create_facet_chunk o D id f n false true q s Hd Hs Hq)); eauto.
Qed.

Lemma add_iq_fold cs : forall q, fold_left add_iq cs q = mk_iq (iq_cells q) (iq_facets q) (iq_n q ++ counts_of cs) (iq_pts q ++ concat (map (map fst) cs)) (iq_wts q ++ concat (map (map snd) cs)).
Proof.
  induction cs as [|c cs IH]; intros q; cbn [fold_left].
  - cbn. rewrite !app_nil_r. now destruct q.
  - rewrite IH. unfold add_iq. cbn. rewrite <- !app_assoc. reflexivity.
Qed.

Lemma facets_interior_ok o D cells facets n s : (dimD D = 2 \/ dimD D = 3)%nat -> valid (dimD D) s ->
  out (create_facets_interior table o D cells facets n s) =
    assert_ (0 <? n)%Z (assert_ (Nat.eqb (length cells) (length facets)) (cs <- mapM (fun cf => int_chunk o D n (fst cf) (snd cf)) (combine cells facets) ;;
      Ret (mk_iq cells facets (counts_of cs) (concat (map (map fst) cs)) (concat (map (map snd) cs))))) /\
  (forall q' s', create_facets_interior table o D cells facets n s = Ret (q', s') -> valid (dimD D) s').
Proof.
  intros Hd Hs. unfold create_facets_interior, facets_generic, out.
  destruct (fold_chunks (fun cf => gen_interior table o D n (fst cf) (snd cf)) (fun cf => int_chunk o D n (fst cf) (snd cf)) add_iq wf_iq (valid (dimD D))
     ltac:(intros; apply gen_int_ok; auto) wf_iq_add (combine cells facets) (mk_iq cells facets [] [] []) s eq_refl Hs) as [H1 H2].
  split.
  - rewrite ?assert_bind. apply assert_ext. intros Hn. rewrite ?assert_bind. apply assert_ext. intros _. rewrite ?assert_bind, Hn. cbn [assert_].
    unfold out in H1. rewrite H1. apply bind_ext. intros cs _. rewrite add_iq_fold. reflexivity.
  - intros q' s' H. apply assert_inv in H as [_ H]. apply assert_inv in H as [_ H]. apply assert_inv in H as [_ H]. eauto.
Qed.
Lemma facets_exterior_ok o D cells facets n s : (dimD D = 2 \/ dimD D = 3)%nat -> valid (dimD D) s ->
  out (create_facets_exterior table o D cells facets n s) =
    assert_ (0 <? n)%Z (assert_ (Nat.eqb (length cells) (length facets)) (cs <- mapM (fun cf => ext_chunk o D n (fst cf) (snd cf)) (combine cells facets) ;;
      Ret (mk_iq cells facets (counts_of cs) (concat (map (map fst) cs)) (concat (map (map snd) cs))))) /\
  (forall q' s', create_facets_exterior table o D cells facets n s = Ret (q', s') -> valid (dimD D) s').
Proof.
  intros Hd Hs. unfold create_facets_exterior, facets_generic, out.
  destruct (fold_chunks (fun cf => gen_exterior table o D n (fst cf) (snd cf)) (fun cf => ext_chunk o D n (fst cf) (snd cf)) add_iq wf_iq (valid (dimD D))
     ltac:(intros; apply gen_ext_ok; auto) wf_iq_add (combine cells facets) (mk_iq cells facets [] [] []) s eq_refl Hs) as [H1 H2].
  split.
  - rewrite ?assert_bind. apply assert_ext. intros Hn. rewrite ?assert_bind. apply assert_ext. intros _. rewrite ?assert_bind, Hn. cbn [assert_].
    unfold out in H1. rewrite H1. apply bind_ext. intros cs _. rewrite add_iq_fold. reflexivity.
  - intros q' s' H. apply assert_inv in H as [_ H]. apply assert_inv in H as [_ H]. apply assert_inv in H as [_ H]. eauto.
Qed.

(** ** Cells *)
Definition cell_chunk (o : alg) (D : domain) (n id : Z) : outcome rule :=
  assert_ (0 <? n)%Z (assert_ (0 <=? id)%Z (
  cut <- is_cut_cell D id ;;
  if cut then dom <- get_cell_domain (d_grid D) id ;; Ret (vol_nodes o dom n)
  else full <- is_full_cell D id ;; if full then create_01 table (dimD D) n else Ret [])).
Definition wf_cq (q : cells_quad) : Prop := True.
Lemma create_cell_chunk o D n id q s : (dimD D = 2 \/ dimD D = 3)%nat -> valid (dimD D) s ->
  out (create_cell_quadrature table o D id n q s) = (c <- cell_chunk o D n id ;; Ret (add_cq q c)) /\
  (forall q' s', create_cell_quadrature table o D id n q s = Ret (q', s') -> valid (dimD D) s').
Proof.
  intros Hd Hv. unfold out, create_cell_quadrature, cell_chunk. fold (dimD D). assert (1 <= dimD D <= 3)%nat as Hd1 by lia. split.
  - rewrite ?assert_bind. apply assert_ext. intros Hn. rewrite ?assert_bind. apply assert_ext. intros _.
    rewrite ?bind_assoc. apply bind_ext. intros cut _. destruct cut.
    + rewrite ?bind_assoc. apply bind_ext. intros dom _. cbn [bind fst]. unfold add_cq. do 2 f_equal. f_equal. f_equal. rewrite app_length, map_length. lia.
    + rewrite ?bind_assoc. apply bind_ext. intros full _. destruct full; [|cbn [bind fst]; unfold add_cq; cbn; now rewrite !app_nil_r].
      rewrite (proj1 (zpow2 n (dimD D) Hd)). rewrite lookup_ok by (try apply Hv; lia).
      rewrite ?bind_assoc. destruct (create_01 table (dimD D) n) as [g| | |] eqn:Eg; cbn [bind fst]; auto.
      destruct (create_01_ok (dimD D) n) as (g' & Eg' & Hlen); [auto|eapply create_01_nz; eauto|].
      rewrite Eg' in Eg. injection Eg as ->. unfold add_cq. now rewrite Hlen.
  - intros q' s' H. apply assert_inv in H as [Hn H]. apply assert_inv in H as [_ H]. apply bind_inv in H as (cut & _ & H). destruct cut.
    + apply bind_inv in H as (dom & _ & H). injection H as _ <-; auto.
    + apply bind_inv in H as (full & _ & H). destruct full; [|injection H as _ <-; auto].
      rewrite (proj1 (zpow2 n (dimD D) Hd)) in H. rewrite lookup_ok in H by (try apply Hv; lia).
      apply bind_inv in H as (g & Eg & H). injection H as _ <-. split; [cbn; eauto|apply Hv].
Qed.
Lemma add_cq_fold cs : forall q, fold_left add_cq cs q = mk_cq (cq_cells q) (cq_n q ++ counts_of cs) (cq_pts q ++ concat (map (map fst) cs)) (cq_wts q ++ concat (map (map snd) cs)).
Proof.
  induction cs as [|c cs IH]; intros q; cbn [fold_left].
  - cbn. rewrite !app_nil_r. now destruct q.
  - rewrite IH. unfold add_cq. cbn. rewrite <- !app_assoc. reflexivity.
Qed.
Lemma create_quadrature_ok o D cells n s : (dimD D = 2 \/ dimD D = 3)%nat -> valid (dimD D) s ->
  out (create_quadrature table o D cells n s) =
    assert_ (0 <? n)%Z (cs <- mapM (cell_chunk o D n) cells ;; Ret (mk_cq cells (counts_of cs) (concat (map (map fst) cs)) (concat (map (map snd) cs)))) /\
  (forall q' s', create_quadrature table o D cells n s = Ret (q', s') -> valid (dimD D) s').
Proof.
  intros Hd Hs. unfold create_quadrature, out.
  destruct (fold_chunks (fun id => create_cell_quadrature table o D id n) (cell_chunk o D n) add_cq wf_cq (valid (dimD D))
     ltac:(intros; apply create_cell_chunk; auto) ltac:(intros; exact I) cells (mk_cq cells [] [] []) s I Hs) as [H1 H2].
  split.
  - rewrite ?assert_bind. apply assert_ext. intros Hn.
    unfold out in H1. rewrite H1. apply bind_ext. intros cs _. rewrite add_cq_fold. reflexivity.
  - intros q' s' H. apply assert_inv in H as [_ H]. eauto.
Qed.

(** ** Unfitted boundaries *)
Definition unf_mark (o : alg) (dom : bbox) (dir side : Z) (x : node) : bool :=
  tol_equal tol_purge (nth (Z.to_nat dir) (fst (fst x)) 0) (facet_coord side) &&
  negb (smaller_than tol_purge (Rabs (nth (Z.to_nat dir) (snd x) 0)) 1) &&
  is_zero tol_purge (phi o (scale_from_01 dom (fst (fst x)))).
Definition unf_pred (o : alg) (D : domain) (id f : Z) : outcome (node -> bool) :=
  unf <- has_unfitted_boundary D id f ;;
  ext <- has_external_boundary D id f ;;
  if negb unf && negb ext then Ret (fun _ => false) else
  dir <- facet_const_dir (Z.of_nat (dimD D)) f ;; side <- facet_side (Z.of_nat (dimD D)) f ;;
  dom <- get_cell_domain (d_grid D) id ;;
  Ret (unf_mark o dom dir side).
Definition wf_uq (q : unf_quad) : Prop := length (uq_wts q) = length (uq_pts q) /\ length (uq_nrm q) = length (uq_pts q).
Lemma wf_uq_add q c : wf_uq q -> wf_uq (add_uq q c).
Proof. unfold wf_uq. intros H. cbn. rewrite !app_length, !map_length. lia. Qed.
Definition dnode : node := (dpt, []).

Lemma purge_unf_chunk o D id f q c : wf_uq q ->
  purge_unf o D id f (add_uq q c) = (p <- unf_pred o D id f ;; Ret (add_uq q (filter (fun x => negb (p x)) c))).
Proof.
  intros [Hl Hl2]. unfold purge_unf, unf_pred. rewrite bind_assoc. apply bind_ext. intros unf _. rewrite bind_assoc. apply bind_ext. intros ext _.
  destruct (negb unf && negb ext).
  { cbn [bind negb]. now rewrite filter_true. }
  rewrite ?bind_assoc. apply bind_ext. intros dir _. rewrite ?bind_assoc. apply bind_ext. intros side _. rewrite ?bind_assoc. apply bind_ext. intros dom _.
  unfold add_uq at 1. cbn [uq_n]. rewrite back_app. cbn [bind].
  set (P := unf_mark o dom dir side).
  rewrite (filterM_ok _ (fun i => P (nth (Z.to_nat (i - Z.of_nat (length (uq_pts q)))) c dnode))).
  - cbn [bind]. replace (Z.of_nat (length (uq_pts (add_uq q c)))) with (Z.of_nat (length (uq_pts q)) + Z.of_nat (length c))%Z by (cbn; rewrite app_length, map_length; lia).
    apply (erase_uq_chunk q c P dnode Hl Hl2).
  - intros i Hi. apply last_ids_in in Hi. cbn [uq_pts add_uq] in *. rewrite app_length, map_length in Hi.
    rewrite (at_ok _ _ []) by (rewrite app_length, map_length; lia). cbn [bind].
    rewrite app_nth2 by lia. replace (Z.to_nat i - length (uq_pts q))%nat with (Z.to_nat (i - Z.of_nat (length (uq_pts q)))) by lia.
    set (j := Z.to_nat (i - _)). assert (nth j (map (fun x : node => fst (fst x)) c) [] = fst (fst (nth j c dnode))) as -> by (exact (map_nth (fun x : node => fst (fst x)) c dnode j)).
    cbn [uq_nrm add_uq]. rewrite (at_ok _ _ []) by (rewrite app_length, map_length; lia). cbn [bind].
    rewrite app_nth2 by lia. replace (Z.to_nat i - length (uq_nrm q))%nat with j by (unfold j; lia).
    assert (nth j (map snd c) [] = snd (nth j c dnode)) as -> by (exact (map_nth (@snd (list R * R) (list R)) c dnode j)).
    unfold P, unf_mark. destruct (tol_equal _ _ _); cbn [negb andb]; auto. destruct (smaller_than _ _ _); cbn [negb andb]; auto.
Qed.

(** The facet points appended to the last slice. *)
Definition bdry_chunk (o : alg) (D : domain) (id f n : Z) : outcome (list node) :=
  hu <- has_unfitted_boundary D id f ;;
  if negb hu then Ret [] else
  c <- iso_chunk o D id f n false true ;;
  dir <- facet_const_dir (Z.of_nat (dimD D)) f ;; side <- facet_side (Z.of_nat (dimD D)) f ;;
  Ret (map (fun nw : list R * R => ((add_component (fst nw) (Z.to_nat dir) (facet_coord side), snd nw), set_nth (Z.to_nat dir) (if (side =? 0)%Z then - (1) else 1) (fresh_point o))) c).

Lemma append_loop (fq : iso_quad) (c : rule) (h : list R -> list R) (nm : list R) q : iq_pts fq = map fst c -> iq_wts fq = map snd c ->
  forall k c0, (k <= length c)%nat ->
  foldM (fun i q =>
      match uq_n q with [] => UB | _ =>
      pt <- at_ (iq_pts fq) i ;; w <- at_ (iq_wts fq) i ;;
      Ret (mk_uq (uq_cells q) (removelast (uq_n q) ++ [last (uq_n q) 0 + 1])%Z (uq_pts q ++ [h pt]) (uq_wts q ++ [w]) (uq_nrm q ++ [nm])) end)
      (map Z.of_nat (seq (length c - k) k)) (add_uq q c0) =
  Ret (add_uq q (c0 ++ map (fun nw => ((h (fst nw), snd nw), nm)) (skipn (length c - k) c))).
Proof.
  intros Hp Hw. induction k as [|k IH]; intros c0 Hk.
  - cbn [seq map foldM]. rewrite Nat.sub_0_r, skipn_all. cbn. now rewrite app_nil_r.
  - cbn [seq map foldM]. set (j := (length c - S k)%nat) in *.
    assert (forall (A : Type) (a b : A), match uq_n (add_uq q c0) with [] => a | _ => b end = b) as Hm.
    { intros. unfold add_uq. cbn. destruct (uq_n q); reflexivity. }
    rewrite Hm. rewrite (at_ok _ _ []) by (rewrite Hp, map_length; unfold j; lia). rewrite (at_ok _ _ 0) by (rewrite Hw, map_length; unfold j; lia). cbn [bind].
    rewrite Nat2Z.id. assert (nth j (iq_pts fq) [] = fst (nth j c dpt)) as -> by (rewrite Hp; apply (map_nth fst c dpt)).
    assert (nth j (iq_wts fq) 0 = snd (nth j c dpt)) as -> by (rewrite Hw; apply (map_nth snd c dpt)).
    replace (S j) with (length c - k)%nat by (unfold j; lia).
    set (x := ((h (fst (nth j c dpt)), snd (nth j c dpt)), nm) : node).
    match goal with |- foldM _ _ ?a = _ => replace a with (add_uq q (c0 ++ [x])) end.
    + rewrite IH by lia. f_equal. f_equal. rewrite <- app_assoc. f_equal. cbn [app].
      assert (skipn j c = nth j c dpt :: skipn (length c - k) c) as ->; [|reflexivity].
      replace (length c - k)%nat with (S j) by (unfold j; lia). assert (j < length c)%nat as Hj by (unfold j; lia). clearbody j. clear -Hj.
      revert j Hj. induction c as [|y c IHc]; intros [|j] Hj; simpl in Hj; try lia; auto. simpl. rewrite IHc by lia. reflexivity.
    + unfold add_uq. cbn [uq_cells uq_n uq_pts uq_wts uq_nrm]. rewrite !map_app, <- !app_assoc. cbn [map].
      rewrite removelast_last, last_last, app_length. cbn [length]. do 2 f_equal. f_equal. lia.
Qed.

Lemma add_unf_chunk o D id f n q c s : (dimD D = 2 \/ dimD D = 3)%nat -> wf_uq q -> valid (dimD D) s ->
  out (add_unf_bdry table o D id f n (add_uq q c) s) = (c' <- bdry_chunk o D id f n ;; Ret (add_uq q (c ++ c'))) /\
  (forall q' s', add_unf_bdry table o D id f n (add_uq q c) s = Ret (q', s') -> valid (dimD D) s').
Proof.
  intros Hd Hq Hs. unfold add_unf_bdry, bdry_chunk, out. fold (dimD D).
  destruct (create_facet_chunk o D id f n false true (mk_iq [] [] [] [] []) s Hd Hs eq_refl) as [H1 H2]. split.
  - rewrite ?bind_assoc. apply bind_ext. intros hu _. destruct hu; cbn [negb bind fst]; [|now rewrite app_nil_r].
    destruct (create_facet_quadrature table o D id f n false true (mk_iq [] [] [] [] []) s) as [[fq s']| | |] eqn:E; unfold out in H1; cbn [bind fst snd] in *.
    2-4: destruct (iso_chunk o D id f n false true); cbn [bind] in *; congruence.
    destruct (iso_chunk o D id f n false true) as [cc| | |] eqn:Ec; cbn [bind] in *; try discriminate. injection H1 as ->.
    unfold add_iq at 1. cbn [iq_n app]. cbn [back_ bind last].
    rewrite ?bind_assoc. apply bind_ext. intros dir _. rewrite ?bind_assoc. apply bind_ext. intros side _.
    unfold zseq. rewrite Nat2Z.id.
    pose proof (append_loop (add_iq (mk_iq [] [] [] [] []) cc) cc (fun pt => add_component pt (Z.to_nat dir) (facet_coord side)) (set_nth (Z.to_nat dir) (if (side =? 0)%Z then - (1) else 1) (fresh_point o)) q eq_refl eq_refl (length cc) c (le_n _)) as HL.
    rewrite Nat.sub_diag in HL. cbn [skipn] in HL. rewrite HL. reflexivity.
  - intros q' s' H. apply bind_inv in H as (hu & _ & H). destruct (negb hu); [injection H as _ <-; auto|].
    apply bind_inv in H as ([fq s1] & Ef & H). apply bind_inv in H as (np & _ & H). apply bind_inv in H as (dir & _ & H). apply bind_inv in H as (side & _ & H).
    apply bind_inv in H as (q1 & _ & H). injection H as _ <-. eapply H2; eauto.
Qed.

Definition purge_all (o : alg) (D : domain) (id : Z) (c : list node) : outcome (list node) :=
  foldM (fun f c => hu <- has_unfitted_boundary D id f ;; if hu then p <- unf_pred o D id f ;; Ret (filter (fun x => negb (p x)) c) else Ret c) (zseq (Z.of_nat (dimD D) * 2)) c.
Definition bdry_all (o : alg) (D : domain) (id n : Z) (exclude : bool) : outcome (list node) :=
  cs <- mapM (fun f => hu <- has_unfitted_boundary D id f ;;
         if hu then skip <- (if exclude then is_exterior_facet D id f else Ret false) ;; if negb skip then bdry_chunk o D id f n else Ret [] else Ret [])
       (zseq (Z.of_nat (dimD D) * 2)) ;;
  Ret (concat cs).
Definition unf_chunk (o : alg) (D : domain) (n : Z) (include exclude : bool) (id : Z) : outcome (list node) :=
  assert_ (0 <? n)%Z (assert_ (0 <=? id)%Z (
  w <- is_cell_with_unf_bdry D id ;;
  if negb w then Ret [] else
  cut <- is_cut_cell D id ;;
  c1 <- (if cut then dom <- get_cell_domain (d_grid D) id ;; purge_all o D id (srf_nodes o dom n) else Ret []) ;;
  if include then c2 <- bdry_all o D id n exclude ;; Ret (c1 ++ c2) else Ret c1)).

Lemma foldM_rel {I A B} (stepA : I -> A -> outcome A) (stepB : I -> B -> outcome B) (g : B -> A) :
  (forall i b, stepA i (g b) = (b' <- stepB i b ;; Ret (g b'))) -> forall l b, foldM stepA l (g b) = (b' <- foldM stepB l b ;; Ret (g b')).
Proof.
  intros H. induction l as [|i l IH]; intros b; cbn [foldM]; auto. rewrite H, !bind_assoc. apply bind_ext. intros b' _. cbn [bind]. apply IH.
Qed.

Lemma create_unf_chunk o D n inc exc id q s : (dimD D = 2 \/ dimD D = 3)%nat -> wf_uq q -> valid (dimD D) s ->
  out (create_cell_unf table o D id n inc exc q s) = (c <- unf_chunk o D n inc exc id ;; Ret (add_uq q c)) /\
  (forall q' s', create_cell_unf table o D id n inc exc q s = Ret (q', s') -> valid (dimD D) s').
Proof.
  intros Hd Hq Hs. unfold out, create_cell_unf, unf_chunk. fold (dimD D).
  assert (add_uq q [] = mk_uq (uq_cells q) (uq_n q ++ [0%Z]) (uq_pts q) (uq_wts q) (uq_nrm q)) as E0 by (unfold add_uq; cbn; now rewrite !app_nil_r).
  assert (forall l c s, valid (dimD D) s ->
    out (foldM (fun f qs => hu <- has_unfitted_boundary D id f ;;
      if hu then skip <- (if exc then is_exterior_facet D id f else Ret false) ;; if negb skip then add_unf_bdry table o D id f n (fst qs) (snd qs) else Ret qs
      else Ret qs) l (add_uq q c, s)) =
    (cs <- mapM (fun f => hu <- has_unfitted_boundary D id f ;;
         if hu then skip <- (if exc then is_exterior_facet D id f else Ret false) ;; if negb skip then bdry_chunk o D id f n else Ret [] else Ret []) l ;;
     Ret (add_uq q (c ++ concat cs))) /\
    (forall q' s', foldM (fun f qs => hu <- has_unfitted_boundary D id f ;;
      if hu then skip <- (if exc then is_exterior_facet D id f else Ret false) ;; if negb skip then add_unf_bdry table o D id f n (fst qs) (snd qs) else Ret qs
      else Ret qs) l (add_uq q c, s) = Ret (q', s') -> valid (dimD D) s')) as Hloop.
  { induction l as [|f l IH]; intros c s0 Hs0; cbn [foldM mapM].
    - cbn. rewrite app_nil_r. split; auto. intros q' s' H. injection H as _ <-. auto.
    - assert (forall c', let m := foldM (fun f qs => hu <- has_unfitted_boundary D id f ;;
      if hu then skip <- (if exc then is_exterior_facet D id f else Ret false) ;; if negb skip then add_unf_bdry table o D id f n (fst qs) (snd qs) else Ret qs
      else Ret qs) l in forall s1, valid (dimD D) s1 -> out (m (add_uq q (c ++ c'), s1)) = (x <- (cs <- mapM (fun f => hu <- has_unfitted_boundary D id f ;;
         if hu then skip <- (if exc then is_exterior_facet D id f else Ret false) ;; if negb skip then bdry_chunk o D id f n else Ret [] else Ret []) l ;; Ret (c' :: cs)) ;; Ret (add_uq q (c ++ concat x)))) as HI.
      { intros c' m s1 Hs1. unfold m. rewrite (proj1 (IH _ _ Hs1)), !bind_assoc. apply bind_ext. intros cs _. cbn [bind concat]. now rewrite <- app_assoc. }
      destruct (has_unfitted_boundary D id f) as [hu| | |]; cbn [bind out]; try (split; [reflexivity|intros; discriminate]).
      destruct hu.
      2:{ cbn [bind fst snd]. destruct (IH c s0 Hs0) as [_ H2]. split; [|exact H2]. specialize (HI [] s0 Hs0). rewrite app_nil_r in HI. exact HI. }
      destruct (if exc then is_exterior_facet D id f else Ret false) as [skip| | |]; cbn [bind out]; try (split; [reflexivity|intros; discriminate]).
      destruct skip; cbn [negb].
      { cbn [bind fst snd]. destruct (IH c s0 Hs0) as [_ H2]. split; [|exact H2]. specialize (HI [] s0 Hs0). rewrite app_nil_r in HI. exact HI. }
      cbn [fst snd]. destruct (add_unf_chunk o D id f n q c s0 Hd Hq Hs0) as [H1 H2].
      destruct (add_unf_bdry table o D id f n (add_uq q c) s0) as [[q1 s1]| | |] eqn:Ea; unfold out in H1; cbn [bind fst] in *.
      2-4: destruct (bdry_chunk o D id f n); cbn [bind] in *; try discriminate; split; [reflexivity|intros; discriminate].
      destruct (bdry_chunk o D id f n) as [c'| | |]; cbn [bind] in *; try discriminate. injection H1 as ->.
      assert (valid (dimD D) s1) as Hs1 by (eapply H2; eauto). split; [apply HI; auto|]. apply (IH (c ++ c') s1 Hs1). }
  split.
  - rewrite ?assert_bind. apply assert_ext. intros Hn. rewrite ?assert_bind. apply assert_ext. intros _.
    rewrite ?bind_assoc. apply bind_ext. intros w _. destruct w; cbn [negb]; [|cbn [bind fst]; now rewrite E0].
    rewrite ?bind_assoc. apply bind_ext. intros cut _.
    match goal with |- bind (bind ?q1 _) _ = _ => assert (q1 = (c1 <- (if cut then dom <- get_cell_domain (d_grid D) id ;; purge_all o D id (srf_nodes o dom n) else Ret []) ;; Ret (add_uq q c1))) as -> end.
    { destruct cut; [|cbn [bind]; now rewrite E0]. rewrite ?bind_assoc. apply bind_ext. intros dom _.
      match goal with |- foldM _ _ ?a = _ => replace a with (add_uq q (srf_nodes o dom n)) end.
      2:{ unfold add_uq. f_equal. f_equal. f_equal. rewrite app_length, map_length. lia. }
      unfold purge_all. rewrite (foldM_rel _ (fun f c => hu <- has_unfitted_boundary D id f ;; if hu then p <- unf_pred o D id f ;; Ret (filter (fun x => negb (p x)) c) else Ret c) (add_uq q)); [reflexivity|].
      intros f c. rewrite ?bind_assoc. apply bind_ext. intros hu _. destruct hu; [|reflexivity]. rewrite purge_unf_chunk by auto. rewrite ?bind_assoc. apply bind_ext. intros p _. reflexivity. }
    rewrite ?bind_assoc. apply bind_ext. intros c1 _. cbn [bind]. destruct inc; [|reflexivity].
    destruct (Hloop (zseq (Z.of_nat (dimD D) * 2)) c1 s Hs) as [H1 _]. unfold out in H1. rewrite H1. unfold bdry_all. rewrite ?bind_assoc. apply bind_ext. intros cs _. reflexivity.
  - intros q' s' H. apply assert_inv in H as [_ H]. apply assert_inv in H as [_ H]. apply bind_inv in H as (w & _ & H). destruct (negb w); [injection H as _ <-; auto|].
    apply bind_inv in H as (cut & _ & H). apply bind_inv in H as (q1 & Eq1 & H). destruct inc; [|injection H as _ <-; auto].
    assert (exists c1, q1 = add_uq q c1) as [c1 ->].
    { destruct cut; [|injection Eq1 as <-; exists []; now rewrite E0]. apply bind_inv in Eq1 as (dom & _ & Eq1).
      match type of Eq1 with foldM _ _ ?a = _ => replace a with (add_uq q (srf_nodes o dom n)) in Eq1 end.
      2:{ unfold add_uq. f_equal. f_equal. f_equal. rewrite app_length, map_length. lia. }
      rewrite (foldM_rel _ (fun f c => hu <- has_unfitted_boundary D id f ;; if hu then p <- unf_pred o D id f ;; Ret (filter (fun x => negb (p x)) c) else Ret c) (add_uq q)) in Eq1.
      - apply bind_inv in Eq1 as (c1 & _ & Eq1). injection Eq1 as <-. eauto.
      - intros f c. rewrite ?bind_assoc. apply bind_ext. intros hu _. destruct hu; [|reflexivity]. rewrite purge_unf_chunk by auto. rewrite ?bind_assoc. apply bind_ext. intros p _. reflexivity. }
    eapply Hloop; eauto.
Qed.
Lemma add_uq_fold cs : forall q, fold_left add_uq cs q = mk_uq (uq_cells q) (uq_n q ++ counts_of cs) (uq_pts q ++ concat (map (map (fun x => fst (fst x))) cs)) (uq_wts q ++ concat (map (map (fun x => snd (fst x))) cs)) (uq_nrm q ++ concat (map (map snd) cs)).
Proof.
  induction cs as [|c cs IH]; intros q; cbn [fold_left].
  - cbn. rewrite !app_nil_r. now destruct q.
  - rewrite IH. unfold add_uq. cbn. rewrite <- !app_assoc. reflexivity.
Qed.
Lemma create_unf_ok o D cells n inc exc s : (dimD D = 2 \/ dimD D = 3)%nat -> valid (dimD D) s ->
  out (create_unfitted_bound table o D cells n inc exc s) =
    assert_ (0 <? n)%Z (cs <- mapM (unf_chunk o D n inc exc) cells ;;
      Ret (mk_uq cells (counts_of cs) (concat (map (map (fun x => fst (fst x))) cs)) (concat (map (map (fun x => snd (fst x))) cs)) (concat (map (map snd) cs)))) /\
  (forall q' s', create_unfitted_bound table o D cells n inc exc s = Ret (q', s') -> valid (dimD D) s').
Proof.
  intros Hd Hs. unfold create_unfitted_bound, out.
  destruct (fold_chunks (fun id => create_cell_unf table o D id n inc exc) (unf_chunk o D n inc exc) add_uq wf_uq (valid (dimD D))
     ltac:(intros; apply create_unf_chunk; auto) wf_uq_add cells (mk_uq cells [] [] [] []) s (conj eq_refl eq_refl) Hs) as [H1 H2].
  split.
  - rewrite ?assert_bind. apply assert_ext. intros Hn.
    unfold out in H1. rewrite H1. apply bind_ext. intros cs _. rewrite add_uq_fold. reflexivity.
  - intros q' s' H. apply assert_inv in H as [_ H]. eauto.
Qed.
End Run.
