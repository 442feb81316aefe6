(** Lemmas for the domain of a function (C101, C102). *)
From Coq Require Import Reals List Lia Lra Arith ZArith.
From Verif Require Import S_Phi S_Grid S_Classify L_Real L_BBox L_Grid L_TensorIndex L_Domain L_DomainBuild L_DomainQ L_DomainT L_Classify L_Poly6 L_Poly8 L_Poly9 M_Phi S_Phi.
Local Close Scope Z_scope.
Local Close Scope nat_scope.
Local Open Scope R_scope.

Lemma total_sum q : sum_weights q = total q.
Proof. apply sum_weights_spec. Qed.

(** The sign by interval arithmetic is sound. *)
Lemma sign_sound O phi b x : encloses O phi -> in_closed (bmin b) (bmax b) x ->
  (compute_sign O b = Sneg -> phi x < 0) /\ (compute_sign O b = Spos -> 0 < phi x).
Proof.
  intros He (L1 & L2 & Hx). unfold compute_sign.
  set (c := box_mid b). set (h := map (fun l => / 2 * l) (box_lengths b)).
  assert (Lc : length c = length x) by (unfold c, box_mid; rewrite map2_length; lia).
  assert (Lh : length h = length x) by (unfold h; rewrite map_length, lengths_len; lia).
  destruct (snd (sm_interval O c h)) eqn:E; [|split; discriminate].
  assert (P : 0 < fst (sm_interval O c h) * phi x).
  { apply He; auto; try lia. intros d Hd. rewrite Lc in Hd. specialize (Hx d Hd).
    unfold c, box_mid. rewrite (map2_nth _ 0 0) by lia.
    replace (nth d h 0) with (/ 2 * (nth d (bmax b) 0 - nth d (bmin b) 0)).
    2:{ rewrite (nth_indep h 0 (/ 2 * 0)) by lia. unfold h. rewrite (map_nth (fun l => / 2 * l)), lengths_nth by lia. reflexivity. }
    unfold Rabs. destruct (Rcase_abs _); lra. }
  destruct (Rltb_spec (fst (sm_interval O c h)) 0) as [H|H].
  - split; [intros _|discriminate]. destruct (Rlt_or_le (phi x) 0); auto. nra.
  - split; [discriminate|intros _]. destruct (Rlt_or_le 0 (phi x)); auto. nra.
Qed.

(** A status from a rule. *)
Lemma from_quad_spec q b :
  match classify_cell_from_quad q b with
  | Tempty => Rabs (total q) <= default_tol
  | Tfull_unf => default_tol < Rabs (total q) /\ Rabs (total q - box_volume b) <= default_tol
  | Tcut => default_tol < Rabs (total q) /\ default_tol < Rabs (total q - box_volume b)
  | Tfull => False
  end.
Proof.
  unfold classify_cell_from_quad. rewrite total_sum. unfold tol_equal. rewrite Rminus_0_r.
  destruct (Rleb_spec (Rabs (total q)) default_tol); [assumption|].
  destruct (Rleb_spec (Rabs (total q - box_volume b)) default_tol); split; lra.
Qed.
Lemma unit_box_volume n : box_volume (unit_box n) = 1.
Proof.
  unfold box_volume, box_lengths, unit_box. cbn [bmin bmax]. induction n as [|n IH]; [reflexivity|].
  cbn [repeat map2 fold_left]. replace (1 * (1 - 0)) with 1 by ring. exact IH.
Qed.

(** What an individual classification of a box means. *)
Definition outside_bad (F : func) (b : bbox) : Prop := match F with Bezier p => bezier_sign p <> Sund | _ => False end.
Lemma classify_cell_spec O F b :
  match classify_cell O F b with
  | Tempty => Rabs (sampled O F b) <= default_tol \/ match F with Bezier p => bezier_sign p = Spos | _ => False end
  | Tfull_unf => default_tol < Rabs (sampled O F b) /\ Rabs (sampled O F b - sampled_volume F b) <= default_tol
  | Tcut => default_tol < Rabs (sampled O F b) /\ default_tol < Rabs (sampled O F b - sampled_volume F b)
  | Tfull => match F with Bezier p => bezier_sign p = Sneg | _ => False end
  end.
Proof.
  destruct F as [phi grad|p]; cbn [classify_cell sampled sampled_volume].
  - unfold classify_cell_general. generalize (from_quad_spec (sm_general O b (-1) 0) b).
    destruct (classify_cell_from_quad _ b); auto.
  - unfold classify_cell_Bezier. destruct (bezier_sign p) eqn:E; auto.
    fold (negative_nodes O (sm_rescale O p b)).
    generalize (from_quad_spec (negative_nodes O (sm_rescale O p b)) (unit_box (length (bmin b)))). rewrite unit_box_volume.
    destruct (classify_cell_from_quad _ _); auto; tauto.
Qed.

(** The result for a cell. *)
Definition cell_claim (O : samplers) (F : func) (b : bbox) (full empty cut : bool) : Prop :=
  (full = true -> (forall x, in_closed (bmin b) (bmax b) x -> fvalue F x < 0) \/ Rabs (sampled O F b - sampled_volume F b) <= default_tol) /\
  (empty = true -> (forall x, in_closed (bmin b) (bmax b) x -> 0 < fvalue F x) \/ Rabs (sampled O F b) <= default_tol) /\
  (cut = true -> default_tol < Rabs (sampled O F b) /\ default_tol < Rabs (sampled O F b - sampled_volume F b)).

Lemma domain_built O F g D : domain_of O F g D -> exists s, built g (fun _ => compute_sign O) (classify_cell O F) (facet_of O F g) D s.
Proof. intros (Hu & order & s & Ho & E). exists s. split; [exact Hu|]. exists order. auto. Qed.
Lemma domain_exists O F g : usable_grid g -> exists D, domain_of O F g D.
Proof.
  intros Hu. destruct (build_domain_ok g (fun _ => compute_sign O) (classify_cell O F) (facet_of O F g) (fun m => m) Hu map_order_id) as (D & s & E & _).
  exists D. split; [exact Hu|]. exists (fun m => m), s. split; [apply map_order_id|exact E].
Qed.

Definition settled_box (F : func) (b : bbox) : Prop :=
  match F with General _ _ => True
  | Bezier p => forall x, in_closed (bmin b) (bmax b) x -> (bezier_sign p = Spos -> 0 < bezier_eval p x) /\ (bezier_sign p = Sneg -> bezier_eval p x < 0) end.

Lemma cell_results O F g D : encloses O (fvalue F) -> domain_of O F g D -> forall id b, cell_id g id -> get_cell_domain g id = Ret b -> settled_box F b ->
  exists full empty cut, is_full_cell D id = Ret full /\ is_empty_cell D id = Ret empty /\ is_cut_cell D id = Ret cut /\
    ((full, empty, cut) = (true, false, false) \/ (full, empty, cut) = (false, true, false) \/ (full, empty, cut) = (false, false, true)) /\
    cell_claim O F b full empty cut.
Proof.
  intros He HD id b Hid Eb Hs. destruct (domain_built _ _ _ _ HD) as (s & HB).
  destruct (every_cell_lemma _ _ _ _ _ _ HB id Hid) as (st & h & Hcr & _ & -> & -> & ->).
  exists (cstatus_eqb st Cfull), (cstatus_eqb st Cempty), (cstatus_eqb st Ccut). do 3 (split; [reflexivity|]).
  assert (Hce : forall lo hi b', contains_enlarged (eps * 1000) lo hi b' -> forall p, in_closed lo hi p -> in_closed (bmin b') (bmax b') p).
  { intros lo hi b' Hb p (P1 & P2 & P3). apply Hb. split; [auto|]. split; [auto|]. intros d Hd. specialize (P3 d Hd). pose proof eps1000_pos. lra. }
  inversion Hcr as [k b' lo hi E1 E2 E3 EE|k b' lo hi E1 E2 E3 EE|k lo hi tid st' e E1 E2 E3 c Hi]; subst.
  - rewrite E1 in Eb. injection Eb as <-. split; [left; reflexivity|]. split; [|split]; try discriminate. intros _. left. intros x Hx. cbn [bmin bmax] in Hx.
    apply (sign_sound O (fvalue F) b' x He (Hce _ _ _ E2 _ Hx)). exact E3.
  - rewrite E1 in Eb. injection Eb as <-. split; [right; left; reflexivity|]. split; [|split]; try discriminate. intros _. left. intros x Hx. cbn [bmin bmax] in Hx.
    apply (sign_sound O (fvalue F) b' x He (Hce _ _ _ E2 _ Hx)). exact E3.
  - rewrite E1 in Eb. injection Eb as <-. destruct Hi as (-> & _).
    pose proof (classify_cell_spec O F (mk_box lo hi)) as Hc. fold c in Hc. destruct c.
    + split; [right; right; reflexivity|]. split; [|split]; try discriminate. intros _. exact Hc.
    + split; [left; reflexivity|]. split; [|split]; try discriminate. intros _. destruct F as [phi grad|p]; [destruct Hc|]. left. intros x Hx. apply (Hs x Hx). exact Hc.
    + split; [right; left; reflexivity|]. split; [|split]; try discriminate. intros _. destruct Hc as [Hc|Hc]; [right; exact Hc|]. left.
      destruct F as [phi grad|p]; [destruct Hc|]. intros x Hx. apply (Hs x Hx). exact Hc.
    + split; [left; reflexivity|]. split; [|split]; try discriminate. intros _. right. apply Hc.
Qed.

(** ** Facets *)
Lemma on_facet_unit (b : bbox) f y : positive_box (bmin b) (bmax b) -> (0 <= f < Z.of_nat (length (bmin b)) * 2)%Z -> length y = (length (bmin b) - 1)%nat -> in_unit_box y ->
  on_facet b f (scale_from_01 b (insert_at (Z.to_nat (f / 2)) (IZR (f mod 2)) y)).
Proof.
  intros [Lb Pb] Hf Ly Hy. set (d := Z.to_nat (f / 2)).
  assert (Hd : (d < length (bmin b))%nat) by (unfold d; assert (f / 2 < Z.of_nat (length (bmin b)))%Z by (apply Z.div_lt_upper_bound; lia); assert (0 <= f / 2)%Z by (apply Z.div_pos; lia); lia).
  assert (Hm : (f mod 2 = 0 \/ f mod 2 = 1)%Z) by (assert (0 <= f mod 2 < 2)%Z by (apply Z.mod_pos_bound; lia); lia).
  set (x := insert_at d (IZR (f mod 2)) y). assert (Lx : length x = length (bmin b)) by (unfold x; rewrite insert_length; lia).
  assert (Bx : forall e, (e < length x)%nat -> 0 <= nth e x 0 <= 1).
  { intros e He. assert (Forall (fun a => 0 <= a <= 1) x) as HF.
    { unfold x, insert_at. apply Forall_app. unfold in_unit_box in Hy. rewrite Forall_forall in Hy. split.
      - apply Forall_forall. intros a Ha. apply Hy. revert Ha. apply (fun H => H). rewrite <- (firstn_skipn d y) at 2. intros Ha. apply in_or_app. left. exact Ha.
      - constructor; [destruct Hm as [-> | ->]; lra|]. apply Forall_forall. intros a Ha. apply Hy. rewrite <- (firstn_skipn d y). apply in_or_app. right. exact Ha. }
    rewrite Forall_forall in HF. apply HF, nth_In. exact He. }
  split.
  - split; [|split]; rewrite ?from01_len by lia; try lia. intros e He. rewrite from01_nth by lia. specialize (Bx e He). specialize (Pb e ltac:(lia)). nra.
  - fold d. rewrite from01_nth by lia. assert (E : nth d x 0 = IZR (f mod 2)) by (unfold x; apply (tins_nth d (IZR (f mod 2)) 0 y); lia). rewrite E.
    destruct Hm as [-> | ->]; cbn [Z.eqb]; lra.
Qed.

Lemma total_cons nw q : total (nw :: q) = snd nw + total q. Proof. reflexivity. Qed.
Lemma total_map (h : list R -> list R) q : total (map (fun nw => (h (fst nw), snd nw)) q) = total q.
Proof. induction q as [|nw q IH]; [reflexivity|]. cbn [map]. rewrite !total_cons. cbn [snd]. now rewrite IH. Qed.
Lemma filter_all {A} (f : A -> bool) l : Forall (fun a => f a = true) l -> filter f l = l.
Proof. induction 1; cbn; [reflexivity|]. rewrite H. congruence. Qed.
Lemma filter_none {A} (f : A -> bool) l : Forall (fun a => f a = false) l -> filter f l = [].
Proof. induction 1; cbn; [reflexivity|]. now rewrite H. Qed.

(** Facet status from rules whose points are all off the level set. *)
Lemma off_flags phi grad dir side q : (forall nw, In nw q -> default_tol < Rabs (phi (fst nw))) -> q <> [] ->
  fold_left (facet_node phi grad dir side) q (false, false, false) = (false, false, true).
Proof.
  intros H Hq. pose proof (flags_spec phi grad dir side q false false false) as Hf. destruct (fold_left _ q _) as [[e u] c]. destruct Hf as (He & Hu & Hc).
  assert (c = true) as ->.
  { apply Hc. right. destruct q as [|[x w] q]; [congruence|]. exists x, w. split; [left; reflexivity|]. apply (H (x, w)). left; reflexivity. }
  assert (e = false) as ->.
  { destruct e; [|reflexivity]. destruct (proj1 He eq_refl) as [H0|(x & w & Hin & Ha & _)]; [discriminate|]. specialize (H _ Hin). cbn [fst] in H. lra. }
  assert (u = false) as ->.
  { destruct u; [|reflexivity]. destruct (proj1 Hu eq_refl) as [H0|(x & w & Hin & Ha & _)]; [discriminate|]. specialize (H _ Hin). cbn [fst] in H. lra. }
  reflexivity.
Qed.
Lemma off_full phi grad dom f q : (0 <= f < Z.of_nat (length (bmin dom)) * 2)%Z -> (forall nw, In nw q -> default_tol < Rabs (phi (fst nw))) ->
  total q = facet_area dom (Z.to_nat (f / 2)) -> total q <> 0 -> classify_facet_from_quad phi grad dom f Tcut q = Ret Ffull.
Proof.
  intros Hf Hoff HT H0. assert (Hq : q <> []) by (intros ->; apply H0; reflexivity).
  unfold classify_facet_from_quad. cbn [assert_]. destruct q as [|nw q']; [congruence|]. set (q := nw :: q') in *.
  unfold facet_const_dir, facet_side. rewrite !assert_true by lia. cbn [bind]. rewrite off_flags by auto. cbn [andb facet_table].
  f_equal. unfold classify_facet_full_unf. rewrite (proj2 (covers_spec q _)); [reflexivity|].
  unfold covers. fold (total q). rewrite HT. unfold Rminus. rewrite Rplus_opp_r, Rabs_R0. pose proof eps_small.
  pose proof (Rmax_l (Rabs (facet_area dom (Z.to_nat (f / 2)))) (Rabs (facet_area dom (Z.to_nat (f / 2))))). pose proof (Rabs_pos (facet_area dom (Z.to_nat (f / 2)))). nra.
Qed.
Lemma unit_area n d : (d < n)%nat -> facet_area (unit_box n) d = 1.
Proof.
  unfold facet_area, box_lengths, unit_box. cbn [bmin bmax]. intros _.
  assert (E : forall l, Forall (fun a => a = 1) l -> fold_left Rmult l 1 = 1).
  { induction 1 as [|a l Ha Hl IH]; [reflexivity|]. cbn. rewrite Ha, Rmult_1_r. exact IH. }
  apply E. apply Forall_forall. intros a Ha. apply remove_in in Ha. clear E. induction n as [|n IH]; [destruct Ha|]. cbn in Ha. destruct Ha as [<-|Ha]; [ring|auto].
Qed.
Lemma fold_mul_assoc l : forall a, fold_left Rmult l a = a * fold_right Rmult 1 l.
Proof. induction l as [|x l IH]; intros a; cbn; [ring|]. rewrite IH. ring. Qed.
Lemma remove_seq d : forall (l : list R), (d < length l)%nat ->
  remove_component d l = map (fun e => nth e l 0) (filter (fun e => negb (Nat.eqb e d)) (seq 0 (length l))).
Proof.
  assert (Hs : forall (l : list R) k, map (fun e => nth (e - k) l 0) (seq k (length l)) = l).
  { induction l as [|a l IH]; intros k; [reflexivity|]. cbn [length seq map]. rewrite Nat.sub_diag. cbn [nth]. f_equal. rewrite <- (IH (S k)) at 2.
    apply map_ext_in. intros e He. apply in_seq in He. replace (e - k)%nat with (S (e - S k)) by lia. reflexivity. }
  assert (G : forall (l : list R) k d, (d < length l)%nat -> remove_component d l = map (fun e => nth (e - k) l 0) (filter (fun e => negb (Nat.eqb e (k + d))) (seq k (length l)))).
  { induction l as [|a l IH]; intros k e Hd; [cbn in Hd; lia|]. destruct e as [|e].
    - cbn [remove_component length seq filter]. rewrite Nat.add_0_r, Nat.eqb_refl. cbn [negb]. rewrite filter_all.
      + rewrite <- (Hs l (S k)) at 1. apply map_ext_in. intros j Hj. apply in_seq in Hj. replace (j - k)%nat with (S (j - S k)) by lia. reflexivity.
      + apply Forall_forall. intros j Hj. apply in_seq in Hj. destruct (Nat.eqb_spec j k); [lia|reflexivity].
    - cbn [remove_component length seq filter]. destruct (Nat.eqb_spec k (k + S e)) as [|_]; [lia|]. cbn [negb map]. rewrite Nat.sub_diag. cbn [nth]. f_equal.
      cbn [length] in Hd. rewrite (IH (S k) e) by lia. replace (S k + e)%nat with (k + S e)%nat by lia.
      apply map_ext_in. intros j Hj. apply filter_In in Hj as [Hj _]. apply in_seq in Hj. replace (j - k)%nat with (S (j - S k)) by lia. reflexivity. }
  intros l Hd. rewrite (G l O d Hd). apply map_ext. intros e. now rewrite Nat.sub_0_r.
Qed.
Lemma facet_area_extent b f : length (bmin b) = length (bmax b) -> (Z.to_nat (f / 2) < length (bmin b))%nat -> facet_area b (Z.to_nat (f / 2)) = facet_extent b f.
Proof.
  intros HL Hd. unfold facet_area, facet_extent. rewrite fold_mul_assoc, Rmult_1_l, remove_seq by (rewrite lengths_len; lia). rewrite lengths_len by lia.
  assert (G : forall l, (forall e, In e l -> (e < length (bmin b))%nat) -> fold_right Rmult 1 (map (fun e => nth e (box_lengths b) 0) l) = fold_right (fun d a => (nth d (bmax b) 0 - nth d (bmin b) 0) * a) 1 l).
  { induction l as [|e l IH]; intros Hl; [reflexivity|]. cbn. rewrite IH by (intros; apply Hl; right; assumption). rewrite lengths_nth by (try apply Hl; try (left; reflexivity); lia). reflexivity. }
  apply G. intros e He. apply filter_In in He as [He _]. apply in_seq in He. lia.
Qed.
Lemma extent_pos b f : positive_box (bmin b) (bmax b) -> 0 < facet_extent b f.
Proof.
  intros [HL HP]. unfold facet_extent.
  assert (G : forall l, (forall e, In e l -> (e < length (bmin b))%nat) -> 0 < fold_right (fun d a => (nth d (bmax b) 0 - nth d (bmin b) 0) * a) 1 l).
  { induction l as [|e l IH]; intros Hl; [cbn; lra|]. cbn. apply Rmult_lt_0_compat; [|apply IH; intros; apply Hl; right; assumption]. specialize (HP e (Hl e (or_introl eq_refl))). lra. }
  apply G. intros e He. apply filter_In in He as [He _]. apply in_seq in He. lia.
Qed.

(** The status of a facet of a cut cell. *)
Lemma facet_dir_range (n : nat) f : (0 <= f < Z.of_nat n * 2)%Z -> (Z.to_nat (f / 2) < n)%nat.
Proof. intros Hf. assert (f / 2 < Z.of_nat n)%Z by (apply Z.div_lt_upper_bound; lia). assert (0 <= f / 2)%Z by (apply Z.div_pos; lia). lia. Qed.
Lemma facet_rule O F b f : sampled_well O F (length (bmin b)) -> positive_box (bmin b) (bmax b) -> (2 <= length (bmin b))%nat -> (0 <= f < Z.of_nat (length (bmin b)) * 2)%Z ->
  exists phi grad dom q, M_Phi.classify_facet O F b f Tcut = classify_facet_from_quad phi grad dom f Tcut q /\ length (bmin dom) = length (bmin b) /\
    (forall nw, In nw q -> exists x, on_facet b f x /\ phi (fst nw) = fvalue F x /\ fvalue F x < 0) /\
    ((forall x, on_facet b f x -> fvalue F x < 0) -> total q = facet_area dom (Z.to_nat (f / 2)) /\ total q <> 0).
Proof.
  intros HS Hb H2 Hf. destruct Hb as [HL HP]. pose proof (facet_dir_range _ _ Hf) as Hd.
  unfold M_Phi.classify_facet. rewrite assert_true by lia. destruct F as [phi grad|p]; cbn [sampled_well fvalue] in *.
  - unfold classify_facet_general, facet_const_dir, facet_side. rewrite !assert_true by lia. cbn [bind].
    exists phi, grad, b, (sm_general O b (f / 2) (f mod 2)). split; [reflexivity|]. split; [reflexivity|].
    destruct (HS b f (conj HL HP) Hf) as [HF HT]. rewrite Forall_forall in HF. split.
    + intros nw Hin. destruct (HF nw Hin). exists (fst nw). auto.
    + intros Hneg. rewrite (HT Hneg), facet_area_extent by assumption. split; [reflexivity|]. pose proof (extent_pos b f (conj HL HP)). lra.
  - destruct HS as (Vp & Lp & Hr & Hsm). destruct (Hr b) as (Vr & Lr & Er); [lia|lia|]. set (r := sm_rescale O p b) in *.
    destruct (bezier_facet_ok r f Vr) as (fp & Ef & Vf & Lf & Evf); [lia|lia|].
    unfold classify_facet_Bezier. fold r. rewrite Ef. unfold facet_const_dir, facet_side. cbn [bind]. rewrite !assert_true by lia. cbn [bind].
    set (q0 := negative_nodes O fp).
    exists (bezier_eval r), (bezier_grad r), (unit_box (length (bmin b))), (map (fun nw => (add_component (fst nw) (Z.to_nat (f / 2)) (IZR (f mod 2)), snd nw)) q0).
    split; [reflexivity|]. split; [cbn [unit_box bmin]; apply repeat_length|].
    destruct (Hsm fp Vf) as [HN HT]. rewrite Forall_forall in HN.
    assert (Hval : forall y, length y = (length (bmin b) - 1)%nat -> bezier_eval fp y = bezier_eval p (scale_from_01 b (insert_at (Z.to_nat (f / 2)) (IZR (f mod 2)) y))).
    { intros y Hy. rewrite Evf by lia. apply Er. rewrite insert_length; lia. }
    split.
    + intros nw Hin. apply in_map_iff in Hin as (nw0 & <- & Hin). cbn [fst]. unfold q0, negative_nodes in Hin. apply filter_In in Hin as [Hin Hn].
      destruct (HN _ Hin) as [Ly By]. apply Rltb_true in Hn. exists (scale_from_01 b (insert_at (Z.to_nat (f / 2)) (IZR (f mod 2)) (fst nw0))).
      split; [apply on_facet_unit; [split; assumption|lia|lia|assumption]|]. rewrite <- Hval by lia. split; [|assumption]. symmetry. apply (Evf (fst nw0)). lia.
    + intros Hneg. rewrite unit_area by assumption. rewrite (total_map (fun v => add_component v (Z.to_nat (f / 2)) (IZR (f mod 2)))). unfold q0, negative_nodes.
      rewrite filter_all.
      * rewrite HT; [split; [reflexivity|lra]|]. intros y Ly By. rewrite Hval by lia. apply Rlt_not_eq. apply Hneg. apply on_facet_unit; [split; assumption|lia|lia|assumption].
      * apply Forall_forall. intros nw Hin. destruct (HN _ Hin) as [Ly By]. apply Rltb_true. rewrite Hval by lia. apply Hneg. apply on_facet_unit; [split; assumption|lia|lia|assumption].
Qed.

Lemma facet_returns O F b f c : sampled_well O F (length (bmin b)) -> positive_box (bmin b) (bmax b) -> (2 <= length (bmin b))%nat -> (0 <= f < Z.of_nat (length (bmin b)) * 2)%Z ->
  exists st, M_Phi.classify_facet O F b f c = Ret st.
Proof.
  intros HS Hb H2 Hf. destruct Hb as [HL HP].
  assert (G : forall phi grad dom q, length (bmin dom) = length (bmin b) -> c = Tcut \/ c = Tfull_unf -> exists st, classify_facet_from_quad phi grad dom f c q = Ret st).
  { intros phi grad dom q Hl Hc. unfold classify_facet_from_quad. rewrite assert_true by (destruct Hc as [-> | ->]; reflexivity).
    destruct q as [|nw q]; [eexists; reflexivity|]. unfold facet_const_dir, facet_side. rewrite Hl, !assert_true by lia. cbn [bind].
    destruct (_ && _); eexists; reflexivity. }
  unfold M_Phi.classify_facet. rewrite assert_true by lia.
  assert (Hc : c = Tfull \/ c = Tempty \/ (c = Tcut \/ c = Tfull_unf)) by (destruct c; auto). destruct Hc as [-> |[-> |Hc]]; try (eexists; reflexivity).
  assert (K : exists st, match F with General phi grad => classify_facet_general O phi grad b f c | Bezier p => classify_facet_Bezier O p b f c end = Ret st).
  { destruct F as [phi grad|p].
    - unfold classify_facet_general, facet_const_dir, facet_side. rewrite !assert_true by lia. cbn [bind]. apply G; auto.
    - cbn [sampled_well] in HS. destruct HS as (Vp & Lp & Hr & Hsm). destruct (Hr b) as (Vr & Lr & Er); [lia|lia|].
      destruct (bezier_facet_ok (sm_rescale O p b) f Vr) as (fp & Ef & _); [lia|lia|].
      unfold classify_facet_Bezier. rewrite Ef. unfold facet_const_dir, facet_side. cbn [bind]. rewrite !assert_true by lia. cbn [bind]. apply G; auto. cbn. apply repeat_length. }
  destruct Hc as [-> | ->]; exact K.
Qed.

(** The box of a cell. *)
Lemma cell_sub_domain g id tid b : usable_grid g -> cell_id g id -> to_tensor id (num_cells_dir g) = Ret tid -> get_cell_domain g id = Ret b ->
  sub_domain g (mk_range tid (map (Z.add 1) tid)) = Ret b /\ positive_box (bmin b) (bmax b) /\ length (bmin b) = length (breaks g).
Proof.
  intros Hu Hid Et Eb. destruct (usable_facts g Hu) as (Hg & Hc & Hd & En). unfold cell_id in Hid. rewrite En in Hid.
  destruct (valid_exists g Hg Hc id Hid) as (x & Hv & <-).
  assert (tid = x) as -> by (rewrite to_tensor_lex in Et by (auto; lia); congruence).
  rewrite (cell_domain_ok g Hg Hc x Hv) in Eb. injection Eb as <-. cbn [bmin bmax].
  pose proof Hv as Hv'. apply (valid_nth g Hg) in Hv' as [Hl Hv'].
  assert (Ho : okr g (mk_range x (map (Z.add 1) x))).
  { split; [|split]; cbn [lower upper].
    - unfold nonempty_dirs. cbn [lower upper]. clear. induction x as [|a x IH]; [constructor|]. cbn [map]. constructor; [lia|exact IH].
    - exact Hl.
    - intros d Hdd. specialize (Hv' d Hdd). rewrite (nth_indep (map _ _) 0%Z (1 + 0)%Z) by (rewrite map_length; lia). rewrite map_nth. lia. }
  rewrite (sub_domain_ok g Hg) by exact Ho.
  destruct (unique_range g (mk_range x (map (Z.add 1) x)) Ho) as (_ & _ & -> & ->).
  { unfold range_size, range_sizes. cbn [lower upper]. clear. induction x as [|a x IH]; [reflexivity|].
    cbn [map vsub size_prod]. rewrite IH. lia. }
  cbn [lower]. split; [reflexivity|]. split; [split|].
  - rewrite (cell_lo_length g), (cell_hi_length g); auto.
  - intros d Hdd. rewrite (cell_lo_length g) in Hdd by auto. apply (cell_pos g Hg x d Hv Hdd).
  - apply (cell_lo_length g); auto.
Qed.

(** What a query about a facet of a cut cell answers. *)
Lemma cut_facet_query O F g D id b f : domain_of O F g D -> cell_id g id -> facet_id g f -> is_cut_cell D id = Ret true -> get_cell_domain g id = Ret b ->
  sampled_well O F (length (breaks g)) -> (2 <= length (breaks g))%nat ->
  exists st, M_Phi.classify_facet O F b f Tcut = Ret st /\ positive_box (bmin b) (bmax b) /\ length (bmin b) = length (breaks g) /\
    forall pr fb, facet_query D pr fb id f = Ret (pr st).
Proof.
  intros HD Hid Hf Hcut Eb HS H2. pose proof HD as (Hu & _). destruct (domain_built _ _ _ _ HD) as (s & HB).
  destruct (every_cell_lemma _ _ _ _ _ _ HB id Hid) as (st & h & Hcr & _ & _ & _ & Ec). rewrite Ec in Hcut. injection Hcut as Hst. apply cstatus_eqb_eq in Hst. subst st.
  inversion Hcr as [k b' lo hi E1 E2 E3 EE|k b' lo hi E1 E2 E3 EE|k lo hi tid st' e E1 E2 E3 c Hi]; subst.
  rewrite E1 in Eb. injection Eb as <-. destruct Hi as (Hst & Hent).
  assert (Hc : c = Tcut) by (destruct c; try discriminate; reflexivity). rewrite Hc in Hent. cbn [kept] in Hent.
  destruct (cell_sub_domain g id tid (mk_box lo hi) Hu Hid E3 E1) as (Esub & Hpos & Hlen).
  assert (Hf' : (0 <= f < Z.of_nat (length (bmin (mk_box lo hi))) * 2)%Z) by (unfold facet_id in Hf; lia).
  destruct (facet_returns O F (mk_box lo hi) f Tcut) as (st & Est); [rewrite Hlen; exact HS|exact Hpos|lia|exact Hf'|].
  exists st. split; [exact Est|]. split; [exact Hpos|]. split; [exact Hlen|]. intros pr fb.
  unfold facet_query, nf. assert (Eg : d_grid D = g) by (apply (df_grid _ _ _ _ _ _ (built_facts _ _ _ _ _ _ HB))). rewrite Eg. unfold facet_id in Hf. rewrite assert_true by lia.
  rewrite Hent. rewrite (at_ok _ _ Ffull) by (rewrite map_length, seq_length; lia). cbn [bind]. f_equal. f_equal.
  rewrite (nth_indep _ Ffull (facet_of O F g (mk_range tid (map (Z.add 1) tid)) 0%nat Tcut)) by (rewrite map_length, seq_length; lia).
  rewrite (map_nth (fun j => facet_of O F g (mk_range tid (map (Z.add 1) tid)) j Tcut)), seq_nth by lia.
  unfold facet_of. rewrite Esub. cbn [bind]. rewrite Nat.add_0_l, Z2Nat.id by lia. rewrite Est. reflexivity.
Qed.

Lemma facet_results O F g D id b f : domain_of O F g D -> cell_id g id -> facet_id g f -> is_cut_cell D id = Ret true -> get_cell_domain g id = Ret b ->
  sampled_well O F (length (breaks g)) -> (2 <= length (breaks g))%nat ->
  ((forall x, on_facet b f x -> 0 <= fvalue F x) -> is_empty_facet D id f = Ret true /\ is_full_facet D id f = Ret false /\ is_cut_facet D id f = Ret false /\
     has_unfitted_boundary D id f = Ret false /\ has_external_boundary D id f = Ret false) /\
  ((forall x, on_facet b f x -> fvalue F x < - default_tol) -> is_full_facet D id f = Ret true /\ is_empty_facet D id f = Ret false /\ is_cut_facet D id f = Ret false /\
     has_unfitted_boundary D id f = Ret false /\ has_external_boundary D id f = Ret false).
Proof.
  intros HD Hid Hf Hcut Eb HS H2. destruct (cut_facet_query O F g D id b f HD Hid Hf Hcut Eb HS H2) as (st & Est & Hpos & Hlen & HQ).
  assert (Hf' : (0 <= f < Z.of_nat (length (bmin b)) * 2)%Z) by (unfold facet_id in Hf; lia).
  destruct (facet_rule O F b f) as (phi & grad & dom & q & Eq & Ld & Hin & HT); [rewrite Hlen; exact HS|exact Hpos|lia|exact Hf'|].
  rewrite Eq in Est. unfold is_empty_facet, is_full_facet, is_cut_facet, has_unfitted_boundary, has_external_boundary. rewrite !HQ. pose proof eps_small as He. split.
  - intros Hge. assert (q = []) as ->.
    { destruct q as [|nw q]; [reflexivity|]. destruct (Hin nw (or_introl eq_refl)) as (x & Hx & _ & Hn). specialize (Hge x Hx). lra. }
    cbn in Est. injection Est as <-. repeat split.
  - intros Hlt. destruct HT as [HT H0]. { intros x Hx. specialize (Hlt x Hx). lra. }
    rewrite off_full in Est; try assumption; [|lia|].
    + injection Est as <-. repeat split.
    + intros nw Hnw. destruct (Hin nw Hnw) as (x & Hx & -> & _). specialize (Hlt x Hx). rewrite Rabs_left by lra. lra.
Qed.
