(** Further theorems on queries found untested by wrong programs: C132 (points on grid lines), C133 (Bezier rules), and additions to C13, C20, C33, C40. *)
From Verif Require Import M_Quad S_Quad S_Domain S_Grid L_Grid L_Real L_Tolerance L_Domain L_DomainQ L_QuadTP L_Quad L_QuadRun L_QuadProps L_QuadMap L_DomainT P_Quad M_Domain M_Tolerance.
From Coq Require Import Lra Lia List.
Import ListNotations.
Open Scope R_scope.

Lemma abs_between a t : Rabs a <= t -> - t <= a <= t.
Proof. intros H. pose proof (Rle_abs a). pose proof (Rle_abs (- a)) as K. rewrite Rabs_Ropp in K. lra. Qed.

(** ** C132 *)
(** [x] is within [tol] of a break other than the two ends. *)
Definition near_inner_break (tol : R) (b : list R) (x : R) : Prop := exists k, (0 < k < length b - 1)%nat /\ Rabs (x - nth k b 0) <= tol.
Definition hit (tol : R) (b : list R) (x : R) : Prop := near_inner_break tol b x /\ x + tol < nth (length b - 1) b 0.

Lemma one_dir tol b x : 0 <= tol -> good b -> nth 0 b 0 <= x <= nth (length b - 1) b 0 ->
  let ub := upper_bound b (x + tol) in
  (1 <= ub <= Z.of_nat (length b))%Z /\
  ((tol_equal tol x (nth (Z.to_nat (ub - 1)) b 0) && (0 <? ub - 1)%Z && (ub - 1 <? Z.of_nat (length b) - 1)%Z)%bool = true <-> hit tol b x).
Proof.
  intros Ht Hg Hx. pose proof Hg as [Hlen Hinc]. destruct (upper_bound_spec b (x + tol)) as (U1 & U2 & U3). set (ub := upper_bound b (x + tol)) in *. cbv zeta.
  assert (1 <= ub)%Z as Hub.
  { destruct (Z.le_gt_cases 1 ub); auto. exfalso. assert (ub = 0)%Z as E by lia. rewrite E in U3.
    specialize (U3 ltac:(lia)). change (Z.to_nat 0) with O in U3. lra. }
  split; [lia|]. rewrite !andb_true_iff. unfold tol_equal. rewrite Rleb_true. split.
  - intros ((A & B) & C). apply Z.ltb_lt in B, C. split.
    + exists (Z.to_nat (ub - 1)). split; [lia|assumption].
    + assert (K : x + tol < nth (Z.to_nat ub) b 0) by (apply U3; lia).
      assert (nth (Z.to_nat ub) b 0 <= nth (length b - 1) b 0) by (apply good_le; auto; lia). lra.
  - intros ((k & Hk & A) & B).
    assert (Hl : (ub < Z.of_nat (length b))%Z).
    { destruct (Z.lt_ge_cases ub (Z.of_nat (length b))); auto. exfalso. specialize (U2 (length b - 1)%nat ltac:(lia)). lra. }
    pose proof (U3 Hl) as K3.
    assert (Hk' : (Z.of_nat k < ub)%Z).
    { destruct (Z.lt_ge_cases (Z.of_nat k) ub); auto. exfalso. assert (nth (Z.to_nat ub) b 0 <= nth k b 0) by (apply good_le; auto; lia).
      apply abs_between in A. lra. }
    split; [split|]; [|apply Z.ltb_lt; lia|apply Z.ltb_lt; lia].
    assert (nth k b 0 <= nth (Z.to_nat (ub - 1)) b 0) by (apply good_le; auto; lia).
    specialize (U2 (Z.to_nat (ub - 1)) ltac:(lia)). apply abs_between in A. apply Rabs_le. lra.
Qed.

(** [d] is the first direction from [s] on that is hit. *)
Definition first_hit (tol : R) (brks : list (list R)) (p : list R) (r : option nat) (s : nat) : Prop :=
  match r with
  | Some d => (s <= d < s + length brks)%nat /\ hit tol (nth (d - s) brks []) (nth (d - s) p 0) /\ forall e, (s <= e < d)%nat -> ~ hit tol (nth (e - s) brks []) (nth (e - s) p 0)
  | None => forall e, (e < length brks)%nat -> ~ hit tol (nth e brks []) (nth e p 0)
  end.
Lemma boundary_from tol : 0 <= tol -> forall brks p s, length p = length brks -> (forall d, (d < length brks)%nat -> good (nth d brks []) /\
   nth 0 (nth d brks []) 0 <= nth d p 0 <= nth (length (nth d brks []) - 1) (nth d brks []) 0) ->
  exists r, at_cells_boundary_from s tol brks p = Ret r /\ first_hit tol brks p r s.
Proof.
  intros Ht. induction brks as [|b brks IH]; intros [|x p] s HL H; try discriminate HL.
  - exists None. split; [reflexivity|]. intros e He. cbn in He. lia.
  - destruct (H 0%nat ltac:(cbn; lia)) as [Hg Hx]. cbn [nth] in Hg, Hx. destruct (one_dir tol b x Ht Hg Hx) as [Hub Hh]. pose proof Hg as [Hlen _].
    cbn [at_cells_boundary_from]. rewrite assert_true by (apply Z.ltb_lt; lia). set (ub := upper_bound b (x + tol)) in *.
    destruct (Z.eqb_spec ub 0) as [|_]; [lia|]. rewrite (at_ok _ _ 0) by lia. cbn [bind]. rewrite assert_true by (apply Z.leb_le; lia).
    destruct (tol_equal tol x (nth (Z.to_nat (ub - 1)) b 0) && (0 <? ub - 1)%Z && (ub - 1 <? Z.of_nat (length b) - 1)%Z)%bool eqn:Eb.
    + exists (Some s). split; [reflexivity|]. unfold first_hit. rewrite Nat.sub_diag. cbn [nth length]. split; [lia|]. split; [now apply Hh|]. intros e He. lia.
    + assert (Hn : ~ hit tol b x) by (intros K; apply Hh in K; congruence).
      destruct (IH p (S s)) as (r & E & F); [cbn in HL; lia| |].
      { intros d Hd. apply (H (S d)). cbn. lia. }
      exists r. split; [exact E|]. unfold first_hit in *. destruct r as [d|].
      * destruct F as (F1 & F2 & F3). cbn [length]. replace (d - s)%nat with (S (d - S s)) by lia. cbn [nth]. split; [lia|]. split; [exact F2|].
        intros e He. destruct (Nat.eq_dec e s) as [->|]; [rewrite Nat.sub_diag; exact Hn|]. replace (e - s)%nat with (S (e - S s)) by lia. cbn [nth]. apply F3. lia.
      * intros [|e] He; [exact Hn|]. cbn in He. cbn [nth]. apply F. lia.
Qed.
(** The answer is the first direction in which the point lies on an inner grid line up to the tolerance; no direction is reported exactly when there is none.
    (The second conjunct of [hit] matters only when the last span is shorter than twice the tolerance.) *)
Theorem C132_points_on_grid_lines : forall brks g p tol, brks <> [] -> make_grid brks = Ret g -> 0 <= tol ->
  in_closed (bmin (gdomain g)) (bmax (gdomain g)) p ->
  exists r, at_cells_boundary g p tol = Ret r /\ first_hit tol brks p r 0 /\
    ((forall d i, (d < length brks)%nat -> (S i < length (nth d brks []))%nat -> nth (S i) (nth d brks []) 0 - nth i (nth d brks []) 0 > 2 * tol) ->
     match r with
     | Some d => (d < length brks)%nat /\ near_inner_break tol (nth d brks []) (nth d p 0) /\ forall e, (e < d)%nat -> ~ near_inner_break tol (nth e brks []) (nth e p 0)
     | None => forall e, (e < length brks)%nat -> ~ near_inner_break tol (nth e brks []) (nth e p 0)
     end).
Proof.
  intros brks g p tol Hne Hmk Ht (L1 & L2 & Hp). destruct (make_grid_facts _ _ Hne Hmk) as [Hf Eb]. pose proof (gf_good _ Hf) as Hgood. rewrite (gf_min _ Hf), (gf_max _ Hf), Eb in *.
  rewrite map_length in L1, L2.
  assert (HH : forall d, (d < length brks)%nat -> good (nth d brks []) /\ nth 0 (nth d brks []) 0 <= nth d p 0 <= nth (length (nth d brks []) - 1) (nth d brks []) 0).
  { intros d Hd. split; [apply Hgood; auto|]. specialize (Hp d ltac:(lia)).
    rewrite (nth_indep (map (fun b => nth 0 b 0) brks) 0 (nth 0 [] 0)) in Hp by (rewrite map_length; lia). rewrite (map_nth (fun b => nth 0 b 0)) in Hp.
    rewrite (nth_indep (map (fun b => nth (length b - 1) b 0) brks) 0 (nth (length (@nil R) - 1) [] 0)) in Hp by (rewrite map_length; lia). rewrite (map_nth (fun b => nth (length b - 1) b 0)) in Hp. exact Hp. }
  destruct (boundary_from tol Ht brks p 0 (eq_sym L1) HH) as (r & E & F). exists r. unfold at_cells_boundary. rewrite Eb. split; [exact E|]. split; [exact F|].
  intros Hgap. assert (K : forall d, (d < length brks)%nat -> near_inner_break tol (nth d brks []) (nth d p 0) -> hit tol (nth d brks []) (nth d p 0)).
  { intros d Hd (k & Hk & A). split; [exists k; auto|]. specialize (Hgap d k Hd ltac:(lia)). apply abs_between in A.
    assert (nth (S k) (nth d brks []) 0 <= nth (length (nth d brks []) - 1) (nth d brks []) 0) by (apply good_le; [apply Hgood; auto|lia]). lra. }
  unfold first_hit in F. destruct r as [d|].
  - rewrite Nat.sub_0_r in F. destruct F as (F1 & (F2 & _) & F3). split; [lia|]. split; [exact F2|]. intros e He N. apply (F3 e); [lia|]. rewrite Nat.sub_0_r. apply K; [lia|exact N].
  - intros e He N. apply (F e He). now apply K.
Qed.
Print Assumptions C132_points_on_grid_lines.
Example C132_nonvacuous : exists g, make_grid [[0; 1; 2]; [0; 1; 2]] = Ret g /\ in_closed (bmin (gdomain g)) (bmax (gdomain g)) [/ 2; 1] /\
  near_inner_break (/ 8) [0; 1; 2] 1 /\ ~ near_inner_break (/ 8) [0; 1; 2] (/ 2).
Proof.
  destruct (make_grid_ok [[0; 1; 2]; [0; 1; 2]]) as [g Hg].
  { intros [|[|d]] Hd; cbn in Hd; try lia; (split; [cbn; lia|]); intros [|[|[|i]]] [|[|[|j]]] Hij; cbn in *; try lia; lra. }
  exists g. split; [exact Hg|]. assert (Hne : [[0; 1; 2]; [0; 1; 2]] <> []) by discriminate. destruct (make_grid_facts _ _ Hne Hg) as [Hf Eb]. rewrite (gf_min _ Hf), (gf_max _ Hf), Eb. split; [|split].
  - split; [reflexivity|]. split; [reflexivity|]. intros [|[|d]] Hd; cbn in *; try lia; lra.
  - exists 1%nat. split; [cbn; lia|]. cbn. rewrite Rminus_eq_0, Rabs_R0. lra.
  - intros ([|[|k]] & Hk & A); cbn in *; try lia. apply abs_between in A. lra.
Qed.

(** ** C40, relative comparisons *)
Theorem C40_relative_comparisons : forall tol x y, 0 <= tol ->
  (equal_rel tol x y = true <-> Rabs (x - y) <= tol * Rmax (Rabs x) (Rabs y)) /\
  (forall rel, equal_rel2 tol x y rel = true <-> Rabs (x - y) <= tol + rel * Rmax (Rabs x) (Rabs y)) /\
  (greater_than_rel tol x y = true <-> x > y + tol * Rmax (Rabs x) (Rabs y)) /\
  (smaller_than_rel tol x y = true <-> x < y - tol * Rmax (Rabs x) (Rabs y)) /\
  equal_rel tol x x = true /\ equal_rel tol x y = equal_rel tol y x /\
  exactly_one (equal_rel tol x y) (greater_than_rel tol x y) (smaller_than_rel tol x y) /\
  (forall a, equal_rel tol (a * x) (a * y) = equal_rel tol x y \/ a = 0).
Proof.
  intros tol x y Ht.
  assert (M : forall a b, (if Rltb a b then b else a) = Rmax a b).
  { intros a b. destruct (Rltb a b) eqn:E; [apply Rltb_true in E; rewrite Rmax_right; lra|apply Rltb_false in E; rewrite Rmax_left; lra]. }
  assert (P0 : forall a b, 0 <= Rmax (Rabs a) (Rabs b)) by (intros a b; pose proof (Rabs_pos a); pose proof (Rmax_l (Rabs a) (Rabs b)); lra).
  assert (S0 : forall a b, Rmax (Rabs a) (Rabs b) = Rmax (Rabs b) (Rabs a)) by (intros; apply Rmax_comm).
  assert (E1 : equal_rel tol x y = true <-> Rabs (x - y) <= tol * Rmax (Rabs x) (Rabs y)) by (unfold equal_rel; rewrite M, Rleb_true, Rmult_comm; tauto).
  assert (E2 : greater_than_rel tol x y = true <-> x > y + tol * Rmax (Rabs x) (Rabs y)).
  { unfold greater_than_rel. rewrite M, Rltb_true, (Rmult_comm _ tol). split; lra. }
  assert (E3 : smaller_than_rel tol x y = true <-> x < y - tol * Rmax (Rabs x) (Rabs y)).
  { unfold smaller_than_rel, greater_than_rel. rewrite M, Rltb_true, (Rmult_comm _ tol), (S0 y x). split; lra. }
  split; [exact E1|]. split; [intros rel; unfold equal_rel2; rewrite M, Rleb_true; tauto|]. split; [exact E2|]. split; [exact E3|].
  split; [|split; [|split]].
  - unfold equal_rel. rewrite M, Rleb_true, Rminus_eq_0, Rabs_R0. apply Rmult_le_pos; [apply P0|assumption].
  - unfold equal_rel. rewrite !M, (S0 x y), (Rabs_minus_sym x y). reflexivity.
  - assert (T : 0 <= tol * Rmax (Rabs x) (Rabs y)) by (apply Rmult_le_pos; [assumption|apply P0]). set (t := tol * Rmax (Rabs x) (Rabs y)) in *. clearbody t.
    destruct (equal_rel tol x y) eqn:F1, (greater_than_rel tol x y) eqn:F2, (smaller_than_rel tol x y) eqn:F3; unfold exactly_one; auto; exfalso.
    + apply proj1 in E1, E2. specialize (E1 eq_refl). specialize (E2 eq_refl). apply abs_between in E1. lra.
    + apply proj1 in E1, E2. specialize (E1 eq_refl). specialize (E2 eq_refl). apply abs_between in E1. lra.
    + apply proj1 in E1, E3. specialize (E1 eq_refl). specialize (E3 eq_refl). apply abs_between in E1. lra.
    + apply proj1 in E3, E2. specialize (E3 eq_refl). specialize (E2 eq_refl). lra.
    + assert (~ Rabs (x - y) <= t) by (intros K; apply E1 in K; discriminate). assert (~ x > y + t) by (intros K; apply E2 in K; discriminate). assert (~ x < y - t) by (intros K; apply E3 in K; discriminate).
      apply H. apply Rabs_le. lra.
  - intros a. destruct (Req_dec a 0) as [|Ha]; [auto|]. left. unfold equal_rel. rewrite !M. replace (a * x - a * y) with (a * (x - y)) by ring. rewrite !Rabs_mult.
    assert (0 < Rabs a) as Hp by (apply Rabs_pos_lt; assumption). rewrite (RmaxRmult (Rabs x) (Rabs y) (Rabs a)) by lra.
    destruct (Rleb (Rabs (x - y)) (Rmax (Rabs x) (Rabs y) * tol)) eqn:F.
    + apply Rleb_true in F. apply Rleb_true. rewrite Rmult_assoc. apply Rmult_le_compat_l; lra.
    + apply Rleb_false in F. apply Rleb_false. rewrite Rmult_assoc. apply Rmult_lt_compat_l; lra.
Qed.
Print Assumptions C40_relative_comparisons.

(** ** C33, scaling of weights *)
Theorem C33_scale_weights : forall ratio q, map fst (scale_weights ratio q) = map fst q /\ (forall F, integ (scale_weights ratio q) F = ratio * integ q F) /\
  forall k, (k < length q)%nat -> snd (nth k (scale_weights ratio q) dpt) = ratio * snd (nth k q dpt).
Proof.
  intros ratio q. split; [|split].
  - unfold scale_weights. rewrite map_map. apply map_ext. reflexivity.
  - intros F. induction q as [|a q IH]; cbn; [ring|]. unfold integ in IH. unfold scale_weights in IH. rewrite IH. ring.
  - intros k Hk. unfold scale_weights. rewrite (nth_indep _ dpt (fst dpt, snd dpt * ratio)) by (rewrite map_length; assumption). rewrite (map_nth (fun nw : list R * R => (fst nw, snd nw * ratio)) q dpt). cbn. ring.
Qed.
Print Assumptions C33_scale_weights.

(** ** C13, leaves *)
Theorem C13_number_of_leaves : forall t st, tree_num_leaves t st = Z.of_nat (length (leaves st t)).
Proof.
  intros t st. induction t as [r s|r l IHl rr IHr]; cbn [tree_num_leaves leaves].
  - destruct (cstatus_eqb s st); reflexivity.
  - rewrite IHl, IHr, app_length. lia.
Qed.
Print Assumptions C13_number_of_leaves.

(** ** C20, what the stored statuses mean *)
(** What the name of a status says (unfitted_domain.hpp 36-48: cut, full, empty, cut_unf_bdry, cut_ext_bdry, cut_unf_bdry_ext_bdry, full_unf_bdry, full_ext_bdry, unf_bdry, ext_bdry, unf_bdry_ext_bdry). *)
Inductive part := Pcut | Pfull | Pempty | Punf_bdry | Pext_bdry.
Definition parts (s : fstatus) : list part :=
  match s with
  | Fcut => [Pcut] | Ffull => [Pfull] | Fempty => [Pempty] | Fcut_unf => [Pcut; Punf_bdry] | Fcut_ext => [Pcut; Pext_bdry] | Fcut_unf_ext => [Pcut; Punf_bdry; Pext_bdry]
  | Ffull_unf => [Pfull; Punf_bdry] | Ffull_ext => [Pfull; Pext_bdry] | Funf => [Punf_bdry] | Fext => [Pext_bdry] | Funf_ext => [Punf_bdry; Pext_bdry]
  end.
Theorem C20_statuses : forall g sign ccell cfacet D s, built g sign ccell cfacet D s ->
  forall id f v, cell_id g id -> facet_id g f -> fm_find (d_fm D) id = Some v -> exists a b c d u e,
  is_full_facet D id f = Ret a /\ is_empty_facet D id f = Ret b /\ is_cut_facet D id f = Ret c /\ is_full_unfitted_facet D id f = Ret d /\
  has_unfitted_boundary D id f = Ret u /\ has_external_boundary D id f = Ret e /\
  let ps := parts (nth (Z.to_nat f) v Ffull) in
  (u = true <-> In Punf_bdry ps) /\ (e = true <-> In Pext_bdry ps) /\ (c = true <-> In Pcut ps) /\ (d = true <-> In Pfull ps /\ In Punf_bdry ps) /\
  (a = true <-> ps = [Pfull]) /\ (b = true <-> In Pempty ps \/ (In Pext_bdry ps /\ ~ In Pcut ps /\ ~ In Punf_bdry ps)).
Proof.
  intros g sign ccell cfacet D s HB id f v Hid Hf Hv. destruct (stat_cell _ _ _ _ _ _ HB id Hid) as (st & h & Hs & Hcr & _).
  unfold is_full_facet, is_empty_facet, is_cut_facet, is_full_unfitted_facet, has_unfitted_boundary, has_external_boundary.
  rewrite (facet_query_ok _ _ _ _ _ _ HB st_is_full _ (only Cfull) id f st Hid Hf Hs) by (apply (is_cell_stat _ _ _ _ _ _ HB); auto).
  rewrite (facet_query_ok _ _ _ _ _ _ HB st_is_empty _ (only Cempty) id f st Hid Hf Hs) by (apply (is_cell_stat _ _ _ _ _ _ HB); auto).
  rewrite !(fun p => facet_query_ok _ _ _ _ _ _ HB p (Ret false) (fun _ => false) id f st Hid Hf Hs eq_refl).
  unfold fb_of. rewrite Hv. do 6 eexists. do 6 (split; [reflexivity|]). cbv zeta.
  destruct (nth (Z.to_nat f) v _); cbn; intuition (discriminate || congruence).
Qed.
Print Assumptions C20_statuses.

Theorem C20_some_unfitted_facet : forall g sign ccell cfacet D s, built g sign ccell cfacet D s ->
  (has_facets_with_unf_bdry D = true <-> exists id f, cell_id g id /\ facet_id g f /\ has_unfitted_boundary D id f = Ret true).
Proof.
  intros g sign ccell cfacet D s HB. pose proof (built_facts _ _ _ _ _ _ HB) as HF. unfold has_facets_with_unf_bdry. rewrite existsb_exists. split.
  - intros ((id & v) & Hin & Hex). cbn [snd] in Hex. apply existsb_exists in Hex as (st0 & Hst & Hu).
    assert (Hfm : fm_find (d_fm D) id = Some v) by (apply fm_find_some; [apply (df_keys _ _ _ _ _ _ HF)|exact Hin]).
    assert (Hid : cell_id g id) by (apply (df_keys_in _ _ _ _ _ _ HF); apply in_map_iff; exists (id, v); auto).
    destruct (stat_cell _ _ _ _ _ _ HB id Hid) as (st & h & Hs & Hcr & _). rewrite Hfm in Hcr. pose proof Hcr as Hcr'. apply cr_entry in Hcr' as (_ & _ & HL). destruct (HL v eq_refl) as [Hlen _].
    destruct (In_nth _ _ Ffull Hst) as (k & Hk & Ek). exists id, (Z.of_nat k).
    assert (Hf : facet_id g (Z.of_nat k)) by (unfold facet_id; lia).
    split; [exact Hid|]. split; [exact Hf|]. unfold has_unfitted_boundary.
    rewrite (facet_query_ok _ _ _ _ _ _ HB st_has_unf (Ret false) (fun _ => false) id (Z.of_nat k) st Hid Hf Hs eq_refl). unfold fb_of. rewrite Hfm, Nat2Z.id. rewrite Ek, Hu. reflexivity.
  - intros (id & f & Hid & Hf & E). destruct (stat_cell _ _ _ _ _ _ HB id Hid) as (st & h & Hs & Hcr & _).
    unfold has_unfitted_boundary in E. rewrite (facet_query_ok _ _ _ _ _ _ HB st_has_unf (Ret false) (fun _ => false) id f st Hid Hf Hs eq_refl) in E. unfold fb_of in E.
    destruct (fm_find (d_fm D) id) as [v|] eqn:Hfm; [|discriminate]. exists (id, v). split; [now apply fm_find_in|]. cbn [snd]. apply existsb_exists.
    apply cr_entry in Hcr as (_ & _ & HL). destruct (HL v eq_refl) as [Hlen _]. unfold facet_id in Hf. eexists. split; [|injection E as E; exact E]. apply nth_In. lia.
Qed.
Print Assumptions C20_some_unfitted_facet.

(** ** C133: the points of the unfitted boundary that a cut cell keeps *)
(** The node [x] = ((point in the unit cell, weight), normal) touches the local facet [f] of the cell with box [dom]. *)
Definition touches (o : alg) (dom : bbox) (f : Z) (x : (list R * R) * list R) : Prop :=
  let dir := Z.to_nat (f / 2) in
  Rabs (nth dir (fst (fst x)) 0 - (if (f mod 2 =? 0)%Z then 0 else 1)) <= tol_purge /\
  Rabs (nth dir (snd x) 0) >= 1 - tol_purge /\ Rabs (phi o (scale_from_01 dom (fst (fst x)))) <= tol_purge.
(** The node made from a node of the library for a Bezier function: directions reversed, same weight, the reversed gradient over its length as normal. *)
Definition bezier_node (o : alg) (dom : bbox) (nw : list R * R) (x : (list R * R) * list R) : Prop :=
  fst (fst x) = rev (fst nw) /\ snd (fst x) = snd nw /\ length (snd x) = length (bz_grad o dom (fst nw)) /\
  (forall d, nth d (snd x) 0 = nth d (rev (bz_grad o dom (fst nw))) 0 / vec_norm (bz_grad o dom (fst nw))) /\
  ((exists d, nth d (bz_grad o dom (fst nw)) 0 <> 0) -> vec_norm (snd x) = 1).
Definition boundary_nodes (o : alg) (dom : bbox) (n : Z) (all : list ((list R * R) * list R)) : Prop :=
  if is_bezier o then Forall2 (bezier_node o dom) (bz_srf o dom n) all else all = map (eval_unf o dom) (alg_srf o dom n).
Lemma sq_rev l : sq (rev l) = sq l.
Proof.
  induction l as [|x l IH]; [reflexivity|]. cbn [rev]. rewrite sq_cons, <- IH. generalize (rev l) as m. clear. induction m as [|y m IH]; cbn [app]; rewrite ?sq_cons; [unfold sq; cbn; ring|]. rewrite IH. ring.
Qed.
Lemma nth_rev_div l a d : nth d (rev (vscale_inv l a)) 0 = nth d (rev l) 0 / a.
Proof. unfold vscale_inv. rewrite <- map_rev. apply vscale_nth. Qed.
Lemma boundary_nodes_ok o dom n : boundary_nodes o dom n (srf_nodes o dom n).
Proof.
  unfold boundary_nodes, srf_nodes. destruct (is_bezier o); [|reflexivity]. induction (bz_srf o dom n) as [|nw l IH]; cbn [map]; constructor; [|exact IH].
  unfold bezier_node, permute_dirs. cbn [fst snd]. split; [reflexivity|]. split; [reflexivity|]. split; [unfold vscale_inv; rewrite rev_length, map_length; reflexivity|]. split.
  - intros d. apply nth_rev_div.
  - intros (d & Hd). assert (Hp : 0 < sq (bz_grad o dom (fst nw))) by (apply (sq_pos _ d); assumption).
    pose proof (norm_unit _ Hp) as K. unfold vec_norm at 1. fold (sq (rev (vscale_inv (bz_grad o dom (fst nw)) (vec_norm (bz_grad o dom (fst nw)))))). rewrite sq_rev. exact K.
Qed.

Lemma purge_keep (o : alg) (D : domain) (g : grid) (id : Z) (dom : bbox) sign ccell cfacet s0 : built g sign ccell cfacet D s0 -> cell_id g id -> get_cell_domain g id = Ret dom ->
  forall l all, (forall f, In f l -> facet_id g f) ->
  exists keep : (list R * R) * list R -> bool, foldM (fun f c => hu <- has_unfitted_boundary D id f ;; if hu then p <- unf_pred o D id f ;; Ret (filter (fun x => negb (p x)) c) else Ret c) l all = Ret (filter keep all) /\
    forall x, keep x = false <-> exists f, In f l /\ has_unfitted_boundary D id f = Ret true /\ touches o dom f x.
Proof.
  intros HB Hid Edom. pose proof (dimD_eq _ _ _ _ _ _ HB) as Ed. pose proof (grid_eq _ _ _ _ _ _ HB) as Eg.
  induction l as [|f l IH]; intros all Hl; cbn [foldM].
  - exists (fun _ => true). split; [f_equal; symmetry; now apply filter_true|]. intros x. split; [discriminate|]. intros (f & [] & _).
  - assert (Hff : facet_id g f) by (apply Hl; left; auto).
    assert (Hl' : forall f, In f l -> facet_id g f) by (intros; apply Hl; right; auto).
    destruct (query_total _ _ _ _ _ _ HB (has_unfitted_boundary D) ltac:(simpl; tauto) id f Hid Hff) as (u & Eu). rewrite Eu. cbn [bind]. destruct u.
    + destruct (query_total _ _ _ _ _ _ HB (has_external_boundary D) ltac:(simpl; tauto) id f Hid Hff) as (e & Ee).
      unfold unf_pred at 1. rewrite Eu, Ee. cbn [bind negb andb]. pose proof Hff as Hff'. unfold facet_id in Hff'. unfold facet_const_dir, facet_side. rewrite Ed, Eg, Edom. rewrite !assert_true by lia. cbn [bind].
      destruct (IH (filter (fun x => negb (unf_mark o dom (f / 2) (f mod 2) x)) all) Hl') as (keep & E & K). exists (fun x => negb (unf_mark o dom (f / 2) (f mod 2) x) && keep x)%bool. split.
      * rewrite E. f_equal. clear. induction all as [|x all IH]; cbn; [reflexivity|]. destruct (unf_mark o dom (f / 2) (f mod 2) x); cbn; [exact IH|]. destruct (keep x); [f_equal|]; exact IH.
      * intros x. rewrite andb_false_iff, K, negb_false_iff.
        assert (T : unf_mark o dom (f / 2) (f mod 2) x = true <-> touches o dom f x).
        { unfold unf_mark, touches, tol_equal, smaller_than, greater_than, is_zero, facet_coord. rewrite !andb_true_iff, negb_true_iff, !Rleb_true, Rltb_false. cbv zeta. split; intros; repeat match goal with H : _ /\ _ |- _ => destruct H end; repeat split; auto; lra. }
        rewrite T. split.
        -- intros [Hx|(f' & Hin & Hu & Ht)]; [exists f; split; [left; auto|auto]|exists f'; split; [right; auto|auto]].
        -- intros (f' & [<-|Hin] & Hu & Ht); [left; auto|right; exists f'; auto].
    + cbn [bind]. destruct (IH all Hl') as (keep & E & K). exists keep. split; [exact E|]. intros x. rewrite K. split.
      * intros (f' & Hin & Hu & Ht). exists f'. split; [right; auto|auto].
      * intros (f' & [<-|Hin] & Hu & Ht); [congruence|exists f'; auto].
Qed.
(** The rule of a cut cell consists of all the nodes of the library, transformed, in order, without exactly those touching a facet with an unfitted boundary. *)
Theorem C133_kept_boundary_points : forall table, Z.of_nat (length table) = n_entries ->
  forall g sign ccell cfacet D s0, built g sign ccell cfacet D s0 -> (length (breaks g) = 2 \/ length (breaks g) = 3)%nat ->
  forall o id n exc st dom, (0 < n)%Z -> reachable table (length (breaks g)) st -> cell_id g id -> is_cut_cell D id = Ret true -> get_cell_domain g id = Ret dom ->
  exists all keep, value (create_unfitted_bound table o D [id] n false exc st) = Ret (one_unf id (filter keep all)) /\ boundary_nodes o dom n all /\
    forall x, keep x = false <-> exists f, facet_id g f /\ has_unfitted_boundary D id f = Ret true /\ touches o dom f x.
Proof.
  intros table Ht g sign ccell cfacet D s0 HB Hdim o id n exc st dom Hn Hr Hid Hcut Edom.
  pose proof (dimD_eq _ _ _ _ _ _ HB) as Ed. pose proof (grid_eq _ _ _ _ _ _ HB) as Eg.
  assert (valid table (dimD D) st) as Hv by (rewrite Ed; apply reachable_valid; auto).
  assert (dimD D = 2 \/ dimD D = 3)%nat as Hd' by now rewrite Ed.
  destruct (create_unf_ok table Ht o D [id] n false exc st Hd' Hv) as [E _].
  destruct (purge_keep o D g id dom sign ccell cfacet s0 HB Hid Edom (zseq (Z.of_nat (dimD D) * 2)) (srf_nodes o dom n)) as (keep & EP & K).
  { intros f Hf. unfold zseq in Hf. apply in_map_iff in Hf as (j & <- & Hj). apply in_seq in Hj. unfold facet_id. rewrite <- Ed. lia. }
  exists (srf_nodes o dom n), keep. split; [|split; [apply boundary_nodes_ok|]].
  - rewrite value_out. rewrite E. rewrite assert_true by lia. cbn [mapM]. unfold unf_chunk. rewrite assert_true by lia. unfold cell_id in Hid. rewrite assert_true by lia.
    unfold is_cell_with_unf_bdry. rewrite Hcut. cbn [bind orb negb]. rewrite Eg, Edom. cbn [bind]. unfold purge_all. rewrite EP. cbn [bind].
    unfold one_unf, counts_of. cbn [map concat]. rewrite !app_nil_r. reflexivity.
  - intros x. rewrite K. split; intros (f & Hf & Hu & Htc); exists f; (split; [|split; assumption]).
    + unfold zseq in Hf. apply in_map_iff in Hf as (j & <- & Hj). apply in_seq in Hj. unfold facet_id. rewrite <- Ed. lia.
    + unfold facet_id in Hf. rewrite <- Ed in Hf. unfold zseq. apply in_map_iff. exists (Z.to_nat f). split; [lia|]. apply in_seq. lia.
Qed.
Print Assumptions C133_kept_boundary_points.

(** ** C134: Bezier rules of cut cells *)
(** The rule has exactly the (reversed) nodes of the library at which the rescaled polynomial is negative, in order and with their weights. *)
Theorem C134_bezier_cell_rule : forall table, Z.of_nat (length table) = n_entries ->
  forall g sign ccell cfacet D s0, built g sign ccell cfacet D s0 -> (length (breaks g) = 2 \/ length (breaks g) = 3)%nat ->
  forall o id n st dom, is_bezier o = true -> (1 <= n <= n_max)%Z -> reachable table (length (breaks g)) st -> cell_id g id -> is_cut_cell D id = Ret true -> get_cell_domain g id = Ret dom ->
  exists q st', create_quadrature table o D [id] n st = Ret (q, st') /\ Forall (fun p => bz o dom p < 0) (cq_pts q) /\
    (forall p w, In (p, w) (combine (cq_pts q) (cq_wts q)) <-> bz o dom p < 0 /\ In (rev p, w) (bz_vol o dom n)) /\
    (forall F, integ (combine (cq_pts q) (cq_wts q)) F = integ (bz_vol o dom n) (fun p => if Rltb (bz o dom (rev p)) 0 then F (rev p) else 0)) /\
    ((forall p, bz o dom p = phi o (scale_from_01 dom p)) -> Forall (fun p => phi o (scale_from_01 dom p) < 0) (cq_pts q)).
Proof.
  intros table Ht g sign ccell cfacet D s0 HB Hdim o id n st dom Hbz Hn Hr Hid Hcut Edom.
  destruct (C26_cell_quadratures table Ht g sign ccell cfacet D s0 HB Hdim o [id] n st Hn Hr) as (q & st' & chunks & E & _ & _ & Ep & Ew & _ & _ & F); [constructor; auto|].
  inversion F as [|? c ? cs (_ & _ & Hc) F' E1 E2]; subst. inversion F'; subst. destruct (Hc Hcut) as (dom' & Ed & ->). rewrite Edom in Ed. injection Ed as <-.
  cbn [map concat] in Ep, Ew. rewrite app_nil_r in Ep, Ew. exists q, st'. split; [exact E|].
  assert (Ec : combine (cq_pts q) (cq_wts q) = vol_nodes o dom n).
  { rewrite Ep, Ew. generalize (vol_nodes o dom n). induction r as [|[a b] r IH]; [reflexivity|]. cbn. f_equal. exact IH. }
  assert (HN : Forall (fun p => bz o dom p < 0) (cq_pts q)).
  { rewrite Ep. unfold vol_nodes. rewrite Hbz. apply Forall_forall. intros p Hp. apply in_map_iff in Hp as ((p' & w) & <- & Hp). apply filter_In in Hp as [_ Hp]. now apply Rltb_true in Hp. }
  split; [exact HN|]. split; [|split].
  - intros p w. rewrite Ec. unfold vol_nodes. rewrite Hbz, filter_In, in_map_iff. cbn [fst snd]. rewrite Rltb_true. unfold permute_dirs. split.
    + intros (((p' & w') & Eq & Hin) & Hb). cbn [fst snd] in Eq. injection Eq as <- <-. rewrite rev_involutive. auto.
    + intros (Hb & Hin). split; [|exact Hb]. exists (rev p, w). cbn [fst snd]. rewrite rev_involutive. auto.
  - intros G. rewrite Ec. unfold vol_nodes. rewrite Hbz. unfold permute_dirs. induction (bz_vol o dom n) as [|[p w] l IH]; [reflexivity|]. cbn [map filter fst snd].
    unfold integ in *. cbn [fold_right fst snd]. rewrite <- IH. destruct (Rltb (bz o dom (rev p)) 0); cbn [fold_right fst snd]; [reflexivity|ring].
  - intros Hphi. apply Forall_forall. intros p Hp. rewrite Forall_forall in HN. rewrite <- Hphi. now apply HN.
Qed.
Print Assumptions C134_bezier_cell_rule.
Example C133_nonvacuous : exists g sign ccell cfacet D s, built g sign ccell cfacet D s /\ length (breaks g) = 2%nat /\ cell_id g 0 /\ is_cut_cell D 0 = Ret true /\ (exists dom, get_cell_domain g 0 = Ret dom) /\
  facet_id g 0 /\ has_unfitted_boundary D 0 0 = Ret true.
Proof.
  destruct (demo_built (fun _ _ => Sund) (fun _ => Tcut) (fun _ _ _ => Funf)) as (g & D & s & HB & Hn & Hb).
  do 4 eexists. exists D, s. split; [exact HB|].
  assert (cell_id g 0) as Hid by (unfold cell_id; lia). assert (facet_id g 0) as Hf by (unfold facet_id; lia).
  split; [exact Hb|]. split; [exact Hid|].
  destruct (stat_cell _ _ _ _ _ _ HB 0%Z Hid) as (st & h & Hs & Hcr & Hcls & Hfl).
  assert (st = Ccut /\ exists v, fm_find (d_fm D) 0 = Some v /\ nth 0 v Ffull = Funf) as (-> & v & Ev & Env).
  { inversion Hcr as [k b lo hi E1 E2 E3 EE|k b lo hi E1 E2 E3 EE|k lo hi tid st' e E1 E2 E3 c [Hi1 Hi2]]; subst; try discriminate.
    split; [reflexivity|]. rewrite Hi2. cbn. eexists. split; [reflexivity|]. rewrite Hb. reflexivity. }
  split; [|split; [|split]].
  - destruct (is_cut_cell_ok _ _ _ _ _ _ HB 0%Z Hid) as (b & -> & Hbb). f_equal. now apply Hbb.
  - destruct (L_QuadProps.cell_box (repeat 0 10100) g 0%Z (proj1 HB) Hid) as (lo & hi & Eb & _). eauto.
  - exact Hf.
  - unfold has_unfitted_boundary. rewrite (facet_query_ok _ _ _ _ _ _ HB _ (Ret false) (fun _ => false) 0%Z 0%Z _ Hid Hf Hs eq_refl). rewrite Ev. unfold fb_of. change (Z.to_nat 0) with 0%nat. now rewrite Env.
Qed.
