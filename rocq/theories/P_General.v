(** Theorems for the reparameterization of a box (C85 - C88). *)
From Coq Require Import Reals List Lia Lra Permutation Arith ZArith.
From Verif Require Import M_Reparam M_General S_General S_Mesh S_Orient S_Affine L_Real L_BBox L_Point L_TensorNat L_Mesh L_Mesh5 L_Orient L_Orient2 L_Orient3 L_Reparam L_Reparam2 L_Reparam3 P_Orient.
Import ListNotations.
Local Close Scope Z_scope. Local Close Scope R_scope. Local Open Scope nat_scope.

(** C85: for every function, all values in interval arithmetic, all roots in their interval: the reparameterization of the region (S = false) or of the level set
    (S = true) terminates without failing, appends whole cells on new points of the box and the wires of these cells, and keeps the mesh valid; for a region
    every new point is used by exactly one cell. *)
Theorem C85_region : forall O grad fresh range (S : bool) m n0 dom, range = 2 \/ range = 3 -> sound O range -> large_box range dom ->
  let dim := if S then range - 1 else range in
  valid dim (m_order m) (m_points m) (m_conn m) (m_wires m) -> Forall (fun p => length p = range) (m_points m) -> length (m_conn m) = n0 * m_order m ^ dim ->
  exists m' k new_points new_ids new_wires, reparam_general O grad fresh range S m dom = Ret m' /\ valid dim (m_order m') (m_points m') (m_conn m') (m_wires m') /\
    region_added dim range (in_box dom) (o_phi O) (10000 * / 2 ^ 52)%R dom m m' n0 k new_points new_ids new_wires /\
    (S = false -> length new_points = k * m_order m ^ dim).
Proof.
  intros O grad fresh range S m n0 dom Hr HO HL dim V Rm Hn. destruct (general_ok O grad fresh range S m n0 dom Hr HO HL V Rm Hn) as (m' & m1 & k & np & ni & wi & E & V' & _ & RA & Ex & _).
  exists m', k, np, ni, wi. split; [exact E|]. split; [exact V'|]. split; [exact RA|]. intros ES. unfold dim. rewrite ES. apply Ex. exact ES.
Qed.
Print Assumptions C85_region.
(** Hence any sequence of boxes can be reparameterized in the same mesh. *)
Theorem C85_boxes : forall O grad fresh range (S : bool) boxes m, range = 2 \/ range = 3 -> sound O range -> Forall (large_box range) boxes ->
  let dim := if S then range - 1 else range in
  valid dim (m_order m) (m_points m) (m_conn m) (m_wires m) -> Forall (fun p => length p = range) (m_points m) ->
  exists m' more, foldM (fun m b => reparam_general O grad fresh range S m b) boxes m = Ret m' /\ valid dim (m_order m') (m_points m') (m_conn m') (m_wires m') /\
    m_order m' = m_order m /\ m_points m' = m_points m ++ more /\ Forall (fun p => Exists (fun b => in_box b p) boxes) more.
Proof.
  intros O grad fresh range S boxes. induction boxes as [|b boxes IH]; intros m Hr HO HB dim V Rm; cbn [foldM].
  - exists m, []. split; [reflexivity|]. split; [exact V|]. split; [reflexivity|]. split; [rewrite app_nil_r; reflexivity|constructor].
  - inversion HB as [|? ? HB1 HB2]; subst. destruct V as (V0 & (n0 & Vn) & VR). destruct (general_ok O grad fresh range S m n0 b Hr HO HB1 (conj V0 (conj (ex_intro _ n0 Vn) VR)) Rm Vn) as (m1 & _ & k & np & ni & wi & E & V1 & Rm1 & RA & _).
    destruct RA as (Eo & Ep & _ & _ & _ & _ & _ & Fp & _). rewrite E. cbn [bind]. destruct (IH m1 Hr HO HB2 V1 Rm1) as (m' & more & E' & V' & Eo' & Ep' & F'). exists m', (np ++ more). split; [exact E'|]. split; [exact V'|]. split; [congruence|].
    split; [rewrite Ep', Ep, app_assoc; reflexivity|]. apply Forall_app. split; [eapply Forall_impl; [|exact Fp]; intros p Hp; left; exact Hp|eapply Forall_impl; [|exact F']; intros p Hp; right; exact Hp].
Qed.
Print Assumptions C85_boxes.

(** C86: the same for facet 2c + s of the box (side s, 0 or 1, of direction c), whose new points lie exactly on the facet. *)
Theorem C86_facet : forall O fresh range c s m n0 dom, range = 2 \/ range = 3 -> c < range -> s < 2 -> sound O range -> large_box range dom ->
  let dim := range - 1 in
  valid dim (m_order m) (m_points m) (m_conn m) (m_wires m) -> Forall (fun p => length p = range) (m_points m) -> length (m_conn m) = n0 * m_order m ^ dim ->
  exists m' k new_points new_ids new_wires, reparam_general_facet O fresh range (2 * Z.of_nat c + Z.of_nat s) m dom = Ret m' /\ valid dim (m_order m') (m_points m') (m_conn m') (m_wires m') /\
    region_added dim range (fun x => in_box dom x /\ nth c x 0%R = nth c (if s =? 0 then bmin dom else bmax dom) 0%R) (o_phi O) (10000 * / 2 ^ 52)%R dom m m' n0 k new_points new_ids new_wires /\
    length new_points = k * m_order m ^ dim.
Proof.
  intros O fresh range c s m n0 dom Hr Hc Hs HO HL dim V Rm Hn. destruct (facet_ok O fresh range c s m n0 dom Hr Hc Hs HO HL V Rm Hn) as (m' & m1 & k & np & ni & wi & E & V' & _ & RA & Ex & _).
  exists m', k, np, ni, wi. split; [exact E|]. split; [exact V'|]. split; [exact RA|exact Ex].
Qed.
Print Assumptions C86_facet.
(** A facet id out of range aborts. *)
Theorem C86_facet_id : forall O fresh range facet m n0 dom, (facet < 0 \/ 2 * Z.of_nat range <= facet)%Z -> 2 <= m_order m -> length (m_conn m) = n0 * m_order m ^ (range - 1) ->
  reparam_general_facet O fresh range facet m dom = Abort.
Proof.
  intros O fresh range facet m n0 dom Hf Ho Hn. unfold reparam_general_facet. rewrite (num_cells_ok (range - 1) m n0) by (assumption || (unfold pts_per_cell; apply pow_pos; assumption)). cbn [bind].
  unfold reparam_facet_cells, facet_const_dir. replace ((0 <=? facet)%Z && (facet <? Z.of_nat range * 2)%Z)%bool with false; [reflexivity|]. symmetry. apply Bool.andb_false_iff.
  destruct Hf; [left; apply Z.leb_gt; lia|right; apply Z.ltb_ge; lia].
Qed.
Print Assumptions C86_facet_id.

(** C87: with initialised points (see C49, C83) the new cells are oriented: non-negative Jacobian for a region, normal along the gradient for the level set,
    outer normal for a facet, at the centre of the cell (for the interpolation at the Chebyshev nodes). *)
Theorem C87_region_partial : forall O grad fresh range m n0 dom, range = 2 \/ range = 3 -> sound O range -> large_box range dom -> (forall k i, fresh k i = repeat 0%R range) ->
  valid range (m_order m) (m_points m) (m_conn m) (m_wires m) -> Forall (fun p => length p = range) (m_points m) -> length (m_conn m) = n0 * m_order m ^ range ->
  exists m' k, reparam_general O grad fresh range false m dom = Ret m' /\ length (m_conn m') = (n0 + k) * m_order m ^ range /\
    forall c, n0 <= c < n0 + k -> (0 <= cell_jacobian (fun i => o_cheb O i (m_order m)) range (m_order m) (group_points (m_order m ^ range) (m_points m') (m_conn m') c) (centre range))%R.
Proof.
  intros O grad fresh range m n0 dom Hr HO HL Hz V Rm Hn. destruct (general_ok O grad fresh range false m n0 dom Hr HO HL V Rm Hn) as (m' & m1 & k & np & ni & wi & E & V' & _ & RA & Ex & V1 & Rm1 & Eo1 & L1 & m2 & E2 & Ep & Ec).
  exists m', k. split; [exact E|]. split; [destruct RA as (_ & _ & C & _ & L & _); rewrite C, app_length, L, Hn; cbn; lia|]. intros c Hc.
  cbn [mesh_dim] in *. assert (L1' : length (m_conn m1) = (n0 + k) * m_order m1 ^ range) by (rewrite Eo1; exact L1). destruct (C49_orient_cells_partial (o_cheb O) fresh range m1 (n0 + k) (seq n0 k) Hr Hz V1 L1' Rm1) as (m2' & E2' & _ & _ & _ & _ & _ & J & _).
  { apply Forall_forall. intros x Hx. apply in_seq in Hx. lia. }
  cbn [orient_new] in E2. rewrite E2 in E2'. injection E2' as <-. rewrite Ep, Ec. rewrite Eo1 in J. apply J. apply in_seq. lia.
Qed.
Print Assumptions C87_region_partial.
Theorem C87_levelset_partial : forall O grad fresh range m n0 dom, range = 2 \/ range = 3 -> sound O range -> large_box range dom -> (forall k i, fresh k i = repeat 0%R range) ->
  (range = 2 -> symmetric_nodes (m_order m) (fun i => o_cheb O i (m_order m))) -> (forall p, length p = range -> length (grad p) = range) ->
  let dim := range - 1 in valid dim (m_order m) (m_points m) (m_conn m) (m_wires m) -> Forall (fun p => length p = range) (m_points m) -> length (m_conn m) = n0 * m_order m ^ dim ->
  exists m' k, reparam_general O grad fresh range true m dom = Ret m' /\ length (m_conn m') = (n0 + k) * m_order m ^ dim /\
    forall c, n0 <= c < n0 + k -> let nodes := fun i => o_cheb O i (m_order m) in let cell := group_points (m_order m ^ dim) (m_points m') (m_conn m') c in
      (0 <= inner (geometric_normal nodes dim (m_order m) cell (centre dim)) (grad (map (cell_map nodes dim (m_order m) cell (centre dim)) (seq 0 range))))%R.
Proof.
  intros O grad fresh range m n0 dom Hr HO HL Hz Hsym Hg dim V Rm Hn. destruct (general_ok O grad fresh range true m n0 dom Hr HO HL V Rm Hn) as (m' & m1 & k & np & ni & wi & E & V' & _ & RA & Ex & V1 & Rm1 & Eo1 & L1 & m2 & E2 & Ep & Ec).
  exists m', k. split; [exact E|]. split; [destruct RA as (_ & _ & C & _ & L & _); rewrite C, app_length, L, Hn; cbn [mesh_dim]; fold dim; lia|]. intros c Hc nodes cell.
  cbn [mesh_dim] in *. fold dim in V1, L1, E2. assert (Er : range = Datatypes.S dim) by (unfold dim; lia). assert (Hdim : dim = 1 \/ dim = 2) by (unfold dim; lia). assert (L1' : length (m_conn m1) = (n0 + k) * m_order m1 ^ dim) by (rewrite Eo1; exact L1).
  destruct (C83_levelset_partial (o_cheb O) fresh dim m1 (n0 + k) (seq n0 k) (o_phi O, grad) [] Hdim) as (m2' & sel & E2' & Hsel & OA & _); try assumption.
  - rewrite <- Er. exact Hz.
  - rewrite <- Er. exact Rm1.
  - apply Forall_forall. intros x Hx. apply in_seq in Hx. lia.
  - intros E1. rewrite Eo1. apply Hsym. lia.
  - intros g p [<-|[]] Lp. cbn [snd]. rewrite <- Er. apply Hg. rewrite Er. exact Lp.
  - cbn [orient_new] in E2. fold dim in E2. rewrite E2 in E2'. injection E2' as <-. destruct OA as (_ & _ & _ & _ & _ & J & _). specialize (J c ltac:(apply in_seq; lia)). cbv zeta in J. rewrite Eo1 in J.
    assert (Es : forall p, sel p = (o_phi O, grad)) by (intros p; destruct (Hsel p) as [[H|[]] _]; symmetry; exact H). rewrite Es in J. cbn [snd] in J. unfold cell. rewrite Ep, Ec. rewrite Er at 1. exact J.
Qed.
Print Assumptions C87_levelset_partial.
Theorem C87_facet_partial : forall O fresh range c s m n0 dom, range = 2 \/ range = 3 -> c < range -> s < 2 -> sound O range -> large_box range dom -> (forall k i, fresh k i = repeat 0%R range) ->
  (range = 2 -> symmetric_nodes (m_order m) (fun i => o_cheb O i (m_order m))) ->
  let dim := range - 1 in valid dim (m_order m) (m_points m) (m_conn m) (m_wires m) -> Forall (fun p => length p = range) (m_points m) -> length (m_conn m) = n0 * m_order m ^ dim ->
  exists m' k, reparam_general_facet O fresh range (2 * Z.of_nat c + Z.of_nat s) m dom = Ret m' /\ length (m_conn m') = (n0 + k) * m_order m ^ dim /\
    forall i, n0 <= i < n0 + k -> let nodes := fun i => o_cheb O i (m_order m) in let cell := group_points (m_order m ^ dim) (m_points m') (m_conn m') i in
      let v := nth c (geometric_normal nodes dim (m_order m) cell (centre dim)) 0%R in if s =? 0 then (v <= 0)%R else (0 <= v)%R.
Proof.
  intros O fresh range c s m n0 dom Hr Hc Hs HO HL Hz Hsym dim V Rm Hn. destruct (facet_ok O fresh range c s m n0 dom Hr Hc Hs HO HL V Rm Hn) as (m' & m1 & k & np & ni & wi & E & V' & _ & RA & Ex & V1 & Rm1 & Eo1 & L1 & m2 & E2 & Ep & Ec).
  exists m', k. split; [exact E|]. split; [destruct RA as (_ & _ & C & _ & L & _); rewrite C, app_length, L, Hn; fold dim; lia|]. intros i Hi nodes cell v.
  fold dim in V1, L1, E2. assert (Er : range = Datatypes.S dim) by (unfold dim; lia). assert (Hdim : dim = 1 \/ dim = 2) by (unfold dim; lia). assert (L1' : length (m_conn m1) = (n0 + k) * m_order m1 ^ dim) by (rewrite Eo1; exact L1).
  destruct (C83_facet_partial (o_cheb O) fresh dim m1 (n0 + k) (seq n0 k) c s Hdim) as (m2' & E2' & OA & _); try assumption; try lia.
  - rewrite <- Er. exact Hz.
  - rewrite <- Er. exact Rm1.
  - apply Forall_forall. intros x Hx. apply in_seq in Hx. lia.
  - intros E1. rewrite Eo1. apply Hsym. lia.
  - rewrite E2 in E2'. injection E2' as <-. destruct OA as (_ & _ & _ & _ & _ & J & _). specialize (J i ltac:(apply in_seq; lia)). cbv zeta in J. rewrite Eo1 in J. rewrite <- Ep, <- Ec in J. fold cell nodes in J.
    pose proof (normal_length nodes dim (m_order m) cell (centre dim) Hdim) as Ln. fold nodes in Ln. unfold v. set (nv := geometric_normal nodes dim (m_order m) cell (centre dim)) in *.
    destruct Hdim as [Ed|Ed]; rewrite Ed in *; destruct nv as [|v0 [|v1 nv']]; cbn in Ln; try lia; destruct nv' as [|v2 [|]]; cbn in Ln; try lia; clear - J Hc Hs Er;
      (assert (Hs' : s = 0 \/ s = 1) by lia); destruct Hs' as [-> | ->]; destruct c as [|[|[|]]]; try lia; cbn in J |- *; lra.
Qed.
Print Assumptions C87_facet_partial.

(** C88: a box in which the interval evaluation shows a constant sign. *)
Lemma uniform_construct O range order (S : bool) dom a psi : range = 2 \/ range = 3 -> length psi = n_facets range -> nth_error psi 0 = Some (mk_psi (tp_const range 0) (-1)) ->
  o_value O (repeat true range) dom (mk_psi (tp_const range 0) (-1)) = (a, true) ->
  construct O range order range n_max_subdivs S [] [] (repeat true range) psi 1 dom = Ret (if (Rltb 0 a || S)%bool then [Clear] else [Clear; Full dom], []).
Proof.
  intros Hr Lp H0 Hv. assert (Er : exists d, range = Datatypes.S (Datatypes.S d)) by (destruct Hr as [-> | ->]; eexists; reflexivity). destruct Er as (d & ->).
  rewrite L_General7.construct_S. unfold prune. cbn [prune_loop Nat.ltb Nat.leb]. rewrite H0, Hv. cbn [fst snd]. unfold consistent. rewrite Hv. cbn [fst snd ps_sign Z.leb Z.compare]. rewrite Bool.andb_false_r, Bool.andb_true_r. cbn [orb].
  unfold Rltb, Rleb. destruct (Rlt_dec 0 a) as [Ha|Ha]; destruct (Rle_dec a 0) as [Hb|Hb]; try lra; cbn [Nat.sub orb].
  - cbn [bind negb]. reflexivity.
  - rewrite H0. cbn [Nat.ltb Nat.leb bind negb Nat.eqb]. destruct S; [reflexivity|]. unfold whole, full_events. rewrite Nat.eqb_refl. reflexivity.
Qed.
Lemma psi0_nth {A} range (p q : A) : nth_error (set_at (repeat p (n_facets range)) 0 q) 0 = Some q.
Proof. assert (H : n_facets range <> 0) by (unfold n_facets; apply Nat.pow_nonzero; lia). destruct (n_facets range); [lia|reflexivity]. Qed.
Lemma uniform_cells O range (S : bool) m dom a : range = 2 \/ range = 3 -> o_value O (repeat true range) dom (mk_psi (tp_const range 0) (-1)) = (a, true) ->
  reparam_cells O range S m dom = if (Rltb 0 a || S)%bool then Ret m else add_full_cell (o_cheb O) range m dom false.
Proof.
  intros Hr Hv. unfold reparam_cells. rewrite (uniform_construct O range (m_order m) S dom a _ Hr (psi0_length range _ _) (psi0_nth range _ _) Hv). cbn [bind fst]. unfold run_events.
  destruct (Rltb 0 a || S)%bool eqn:E; [reflexivity|]. apply Bool.orb_false_iff in E as [_ ->]. cbn [foldM run_event bind fst snd]. destruct (add_full_cell (o_cheb O) range m dom false); reflexivity.
Qed.
(** Positive: nothing is appended, to a region or to a level set; negative (or zero): nothing is appended to a level set. *)
Theorem C88_nothing : forall O grad fresh range (S : bool) m n0 dom a, range = 2 \/ range = 3 -> 2 <= m_order m -> length (m_conn m) = n0 * m_order m ^ (if S then range - 1 else range) ->
  o_value O (repeat true range) dom (mk_psi (repeat 0 range) (-1)) = (a, true) -> (0 < a)%R \/ S = true -> reparam_general O grad fresh range S m dom = Ret m.
Proof.
  intros O grad fresh range S m n0 dom a Hr Ho Hn Hv Ha. unfold reparam_general. rewrite (num_cells_ok (mesh_dim range S) m n0) by (assumption || (unfold pts_per_cell; apply pow_pos; assumption)). cbn [bind].
  rewrite (uniform_cells O range S m dom a Hr Hv). replace (Rltb 0 a || S)%bool with true by (symmetry; destruct Ha as [Ha| ->]; [rewrite (proj2 (Rltb_true 0 a) Ha); reflexivity|apply Bool.orb_true_r]). cbn [bind].
  rewrite (num_cells_ok (mesh_dim range S) m n0) by (assumption || (unfold pts_per_cell; apply pow_pos; assumption)). cbn [bind]. rewrite Nat.sub_diag. cbn [seq].
  assert (EO : orient_new O grad fresh range S m [] = Ret m).
  { unfold orient_new. destruct S; [destruct (orient_with_loop (o_cheb O) fresh (range - 1) m [] (fun p => normalize (grad p)) Ho) as (d & E); unfold orient_levelset; cbn [min_element snd]; rewrite E; reflexivity|].
    destruct (orient_cells_loop (o_cheb O) fresh range m [] Ho) as (d & E). rewrite E. reflexivity. }
  rewrite EO. cbn [bind]. unfold wirebasket_phi. destruct (1 <? mesh_dim range S); reflexivity.
Qed.
Print Assumptions C88_nothing.
(** Negative (or zero): the region is the whole box, reparameterized with one cell whose points are the lattice of the nodes of the box. *)
Theorem C88_whole_box : forall O grad fresh range m n0 dom a, range = 2 \/ range = 3 -> sound O range -> large_box range dom ->
  valid range (m_order m) (m_points m) (m_conn m) (m_wires m) -> Forall (fun p => length p = range) (m_points m) -> length (m_conn m) = n0 * m_order m ^ range ->
  o_value O (repeat true range) dom (mk_psi (repeat 0 range) (-1)) = (a, true) -> (a <= 0)%R ->
  exists m' new_points new_ids new_wires, reparam_general O grad fresh range false m dom = Ret m' /\
    region_added range range (in_box dom) (o_phi O) (10000 * / 2 ^ 52)%R dom m m' n0 1 new_points new_ids new_wires /\ length new_points = m_order m ^ range /\
    forall t d, is_index range (m_order m) t -> d < range -> let lo := nth d (bmin dom) 0%R in let hi := nth d (bmax dom) 0%R in let i := nth d t 0 in
      nth d (nth (position (m_order m) t) new_points []) 0%R = (lo + (hi - lo) * (if m_order m <? 7 then INR i / INR (m_order m - 1) else o_cheb O i (m_order m)))%R.
Proof.
  intros O grad fresh range m n0 dom a Hr HO HL V Rm Hn Hv Ha. destruct (C45_proof (o_cheb O) range m dom false Hr V (proj1 HL) (proj1 (proj2 HL))) as (m1 & new & E & Eo & Ep & Ln & Lat & Ec & Ew).
  assert (E1 : reparam_cells O range false m dom = Ret m1) by (rewrite (uniform_cells O range false m dom a Hr Hv); replace (Rltb 0 a) with false by (symmetry; apply Rltb_false; exact Ha); exact E).
  destruct (general_ok O grad fresh range false m n0 dom Hr HO HL V Rm Hn) as (m' & m1' & k & np & ni & wi & Eg & V' & _ & RA & Ex & _). cbn [mesh_dim] in *. specialize (Ex eq_refl).
  assert (Q : np = new /\ k = 1).
  { clear Ex. destruct (reparam_cells_ok O range false m n0 dom Hr HO HL (proj1 V) Hn) as (mm & npp & nii & EE & CA & _). rewrite E1 in EE. injection EE as <-. cbn [mesh_dim] in CA.
    assert (Re : forall m2, reordered range n0 m1 m2 -> forall kk, length nii = kk * m_order m ^ range -> exists m'' ni' wi', wirebasket_phi (o_phi O) range range m2 (seq n0 kk) dom reparam_tol = Ret m'' /\ vm range m'' /\ rangem range m'' /\ length ni' = length nii /\
       region_added range range (in_box dom) (o_phi O) reparam_tol dom m m'' n0 kk npp ni' wi' /\ m_points m'' = m_points m2 /\ m_conn m'' = m_conn m2).
    { intros m2 R2 kk Hk. apply (finish_ok range range (in_box dom) (o_phi O) reparam_tol dom m m1 m2 n0 npp nii Hr ltac:(lia) V Rm (proj1 HL) (proj1 (proj2 HL)) Hn); try assumption. intros p [Lp _]. rewrite Lp. apply HL. }
    pose proof (added_vm range _ m m1 npp nii V CA) as V1. destruct CA as (A & B & C & _). rewrite Ep in B. apply app_inv_head in B. subst npp. rewrite Ec in C. apply app_inv_head in C. subst nii.
    assert (Ln1 : length (m_conn m1) = (n0 + 1) * m_order m1 ^ range) by (rewrite Ec, app_length, seq_length, Hn, Eo; lia).
    destruct (orient_cells_loop (o_cheb O) fresh range m1 (seq n0 1)) as (dec & Ed); [rewrite Eo; apply V|]. destruct (loop_reordered range dec m1 n0 1 ltac:(lia) V1 Ln1) as (m2 & E2 & R2).
    destruct (Re m2 R2 1) as (m'' & ni' & wi' & E3 & _ & _ & _ & RA' & _); [rewrite seq_length; lia|].
    assert (Em : Ret m' = Ret m'').
    { rewrite <- Eg, <- E3. unfold reparam_general. cbn [mesh_dim]. rewrite (num_cells_ok range m n0) by (assumption || (unfold pts_per_cell; apply pow_pos; apply V)). cbn [bind]. rewrite E1. cbn [bind].
      rewrite (num_cells_ok range m1 (n0 + 1)) by (assumption || (unfold pts_per_cell; apply pow_pos; apply V1)). cbn [bind]. replace (n0 + 1 - n0) with 1 by lia. unfold orient_new. rewrite Ed, E2. reflexivity. }
    injection Em as <-. destruct RA as (_ & P1 & C1 & _ & K1 & _). destruct RA' as (_ & P2 & C2 & _ & K2 & _). rewrite P1 in P2. apply app_inv_head in P2. rewrite C1 in C2. apply app_inv_head in C2. subst ni'. split; [exact P2|].
    rewrite K1 in K2. apply Nat.mul_cancel_r in K2; [exact K2|]. pose proof (pow_pos (m_order m) range (proj1 V)). lia. }
  destruct Q as [-> ->]. exists m', new, ni, wi. split; [exact Eg|]. split; [exact RA|]. split; [exact Ln|]. intros t d Ht Hd. destruct (Lat t d Ht Hd) as [_ H]. exact H.
Qed.
Print Assumptions C88_whole_box.

(** The hypotheses are met: the half space below x0 + x1 = 1 of the unit square, with a root finder for x0 + x1 = 1, no information from interval arithmetic but
    the exact gradient (1, 1); an empty mesh of order 2. *)
Definition ex_oracles : oracles :=
  mk_oracles (fun p => nth 0 p 0 + nth 1 p 0 - 1)%R (fun _ _ _ => (0%R, false)) (fun _ _ _ _ => (1%R, 0%R, true)) (fun _ _ s => (s, s))
    (fun p d a b _ => filter (fun r => (Rleb a r && Rleb r b)%bool) [(1 - nth (1 - d) p 0)%R]) L_Roots.rsort_ins (fun i n => (INR i / INR (n - 1))%R) (mk_psi [0; 0] 0) [0; 0]%R.
Definition ex_box : bbox := mk_box [0; 0]%R [1; 1]%R.
Example ex_sound : sound ex_oracles 2.
Proof.
  constructor; [|exact L_Roots.rsort_ins_ok| |reflexivity].
  - intros pt d a b flag _. apply Forall_forall. intros r Hr. cbn [ex_oracles o_root_find] in Hr. apply filter_In in Hr as [_ H]. apply andb_prop in H as [H1 H2]. apply Rleb_true in H1, H2. split; assumption.
  - intros i n Hi. cbn [ex_oracles o_cheb]. destruct n as [|[|n]]; [lia|assert (i = 0) by lia; subst; cbn; unfold Rdiv; rewrite Rmult_0_l; lra|].
    replace (Datatypes.S (Datatypes.S n) - 1) with (Datatypes.S n) by lia. assert (0 < INR (Datatypes.S n))%R by (apply lt_0_INR; lia). assert (INR i <= INR (Datatypes.S n))%R by (apply le_INR; lia). pose proof (pos_INR i).
    split; [apply Rmult_le_pos; [assumption|left; apply Rinv_0_lt_compat; assumption]|]. apply (Rmult_le_reg_r (INR (Datatypes.S n))); [assumption|]. unfold Rdiv. rewrite Rmult_assoc, Rinv_l by lra. lra.
Qed.
Example ex_large : large_box 2 ex_box.
Proof. split; [reflexivity|]. split; [reflexivity|]. intros [|[|d]] Hd; try lia; cbn [ex_box bmin bmax nth]; lra. Qed.
Example ex_valid : valid 2 2 [] [] [].
Proof. split; [lia|]. split; [exists 0; reflexivity|]. split; [exists 0; reflexivity|]. split; constructor. Qed.
Example ex_meets : exists m' k np ni wi, reparam_general ex_oracles (fun _ => [1; 1]%R) (fun _ _ => [0; 0]%R) 2 false (mk_mesh 2 [] [] []) ex_box = Ret m' /\
  region_added 2 2 (in_box ex_box) (o_phi ex_oracles) (10000 * / 2 ^ 52)%R ex_box (mk_mesh 2 [] [] []) m' 0 k np ni wi.
Proof.
  destruct (C85_region ex_oracles (fun _ => [1; 1]%R) (fun _ _ => [0; 0]%R) 2 false (mk_mesh 2 [] [] []) 0 ex_box (or_introl eq_refl) ex_sound ex_large ex_valid (Forall_nil _) eq_refl) as (m' & k & np & ni & wi & E & _ & R & _).
  exists m', k, np, ni, wi. split; assumption.
Qed.
