(** Theorems on the position of the points of a reparameterization (C98 - C100). *)
From Coq Require Import Reals List Lia Lra Permutation Sorted Arith ZArith.
From Verif Require Import M_Reparam M_General S_General S_Geo S_Mesh S_Roots L_Real L_BBox L_Point L_TensorNat L_Mesh L_Mesh5 L_Roots P_Roots L_General L_General2 L_General3 L_General4 L_General5 L_General6 L_General7 L_Orient L_Orient3 L_Reparam L_Reparam2 L_Reparam3 L_Geo1 L_Geo2 L_Geo3 L_Geo4 L_Geo5 L_Geo6 L_Geo7 P_General.
From Verif Require L_Geo8.
Import ListNotations.
Local Close Scope Z_scope. Local Close Scope nat_scope. Local Open Scope R_scope.

Lemma nmax : n_max_subdivs = 16%nat.
Proof. reflexivity. Qed.
Lemma ext_moderate phi range dom M : large_box range dom -> moderate phi dom M -> forall d, (d < range)%nat -> extent dom d <= M.
Proof. intros (L1 & _) (_ & H & _) d Hd. unfold extent, hi, lo. apply H. lia. Qed.
Lemma cells_run O range S m dom m1 : reparam_cells O range S m dom = Ret m1 -> exists evs refs mp,
  construct O range (m_order m) range n_max_subdivs S [] [] (repeat true range) (set_at (repeat (o_psi O) (n_facets range)) 0 (mk_psi (tp_const range 0%nat) (-1))) 1 dom = Ret (evs, refs) /\
  foldM (run_event (o_cheb O) (mesh_dim range S)) evs (m, []) = Ret (m1, mp).
Proof.
  unfold reparam_cells. intros E1. apply bind_inv in E1 as ([evs refs] & EC & E1). unfold run_events in E1. apply bind_inv in E1 as ([m2 mp] & E2 & E1). injection E1 as <-. exists evs, refs, mp. split; [exact EC|exact E2].
Qed.
Lemma plane_top O range order (S : bool) free p0 q dom M m m1 evs refs mp mdim : sound O range -> exact O dom -> large_box range dom -> moderate (o_phi O) dom M -> (2 <= order)%nat ->
  (range = 2%nat /\ free = repeat true 2) \/ (range = 3%nat /\ S = false /\ exists c, (c < 3)%nat /\ free = set_at (repeat true 3) c false) -> ps_sign p0 = (-1)%Z -> length (ps_side p0) = range ->
  (S = false -> range = 2%nat -> mdim = 2%nat) -> m_order m = order ->
  construct O range order 2 n_max_subdivs S [] [] free (set_at (repeat q (n_facets range)) 0 p0) 1 dom = Ret (evs, refs) -> foldM (run_event (o_cheb O) mdim) evs (m, []) = Ret (m1, mp) ->
  exists np, m_points m1 = m_points m ++ np /\ Forall (goodx O dom S free p0 M) np.
Proof.
  intros HO HX HB HM Ho Cs Sg Ls Hmd Em EC E2. rewrite nmax in EC. assert (HM' := HM). destruct HM' as (M1 & _ & L & L0 & LM & Lip). assert (HBe := ext_moderate _ _ _ _ HB HM).
  destruct (plane_geo O range order dom HO HX (proj1 HB) (proj1 (proj2 HB)) Ho S free _ p0 L M Cs (psi0_nth range _ _) (psi0_length range _ _) Sg Ls M1 HBe L0 LM Lip 16 dom evs refs (inv_first range dom HB) EC) as [F _].
  destruct (run_points (o_cheb O) mdim order (goodx O dom S free p0 M) (goodb O range dom S free p0 M)) with (evs := evs) (m := m) (mp := @nil (list nat * nat)) (m' := m1) (mp' := mp) as (_ & np' & Ep2 & Fp); try assumption.
  - intros b t Hb Ht. assert (Hb' := Hb). destruct Hb' as (Es & Er & _). apply (goodb_point O range order dom HO (proj1 HB) (proj1 (proj2 HB)) Ho S free _ p0 M Cs (psi0_length range q p0) Ls b t Hb). rewrite (Hmd Es (eq_sym Er)) in Ht. rewrite <- Er. exact Ht.
  - exists np'. auto.
Qed.
Lemma facet_run O range c s m dom m1 : (c < range)%nat -> (s < 2)%nat -> reparam_facet_cells O range (2 * Z.of_nat c + Z.of_nat s) m dom = Ret m1 -> exists evs refs mp,
  construct O range (m_order m) (range - 1) n_max_subdivs false [] [] (set_at (repeat true range) c false) (set_at (repeat (o_psi O) (n_facets range)) 0 (mk_psi (set_at (tp_const range 0%nat) c s) (-1))) 1 dom = Ret (evs, refs) /\
  foldM (run_event (o_cheb O) (range - 1)) evs (m, []) = Ret (m1, mp).
Proof.
  intros Hc Hs E1. unfold reparam_facet_cells, facet_const_dir, facet_side in E1. rewrite !assert_true in E1 by (apply andb_true_intro; split; [apply Z.leb_le|apply Z.ltb_lt]; lia). cbn [bind] in E1.
  replace ((2 * Z.of_nat c + Z.of_nat s) / 2)%Z with (Z.of_nat c) in E1 by (apply Z.div_unique with (Z.of_nat s); lia).
  replace ((2 * Z.of_nat c + Z.of_nat s) mod 2)%Z with (Z.of_nat s) in E1 by (apply Z.mod_unique with (Z.of_nat c); lia). rewrite !Nat2Z.id in E1.
  apply bind_inv in E1 as ([evs refs] & EC & E1). unfold run_events in E1. apply bind_inv in E1 as ([m2 mp] & E2 & E1). injection E1 as <-. exists evs, refs, mp. split; [exact EC|exact E2].
Qed.
Lemma bisected_len n b B : bisected n b B -> length (bmax b) = length (bmin b) -> length (bmin B) = length (bmin b) /\ length (bmax B) = length (bmin b).
Proof. induction 1 as [|n b d u c Hd _ IH]; intros E; [auto|]. destruct (half_len b d u) as [A C]. rewrite <- A. apply IH. congruence. Qed.
Lemma centre_free B s : length (bmin B) = 2%nat -> centre (repeat true 2) (mk_psi s (-1)) B = box_centre B.
Proof. intros E. unfold centre, restrict, box_centre. rewrite E. reflexivity. Qed.
Lemma centre_fixed B c s : (c < 3)%nat -> length (bmin B) = 3%nat -> centre (set_at (repeat true 3) c false) (mk_psi (set_at (tp_const 3 0%nat) c s) (-1)) B = set_at (box_centre B) c (side_coord B s c).
Proof. intros Hc E. unfold centre, restrict, box_centre. rewrite E. destruct c as [|[|[|c]]]; [reflexivity..|lia]. Qed.

(** C98: in the plane, for a level set function that is not too steep, every new point of the mesh of the level set is in the box, and the function nearly
    vanishes there. *)
Theorem C98_levelset_partial : forall O grad fresh m n0 dom M, sound O 2 -> exact O dom -> large_box 2 dom -> moderate (o_phi O) dom M ->
  valid 1 (m_order m) (m_points m) (m_conn m) (m_wires m) -> Forall (fun p => length p = 2%nat) (m_points m) -> length (m_conn m) = (n0 * m_order m ^ 1)%nat ->
  exists m' new_points, reparam_general O grad fresh 2 true m dom = Ret m' /\ m_points m' = m_points m ++ new_points /\
    Forall (fun p => in_box dom p /\ Rabs (o_phi O p) <= accuracy M) new_points.
Proof.
  intros O grad fresh m n0 dom M HO HX HB HM V Rm Hn. destruct (general_points O grad fresh 2 true m n0 dom (or_introl eq_refl) HO HB V Rm Hn) as (m' & m1 & np & E & E1 & Ep & Ep1 & Hin).
  exists m', np. split; [exact E|]. split; [congruence|]. apply cells_run in E1 as (evs & refs & mp & EC & E2).
  destruct (plane_top O 2 (m_order m) true (repeat true 2) (mk_psi (tp_const 2 0%nat) (-1)) (o_psi O) dom M m m1 evs refs mp (mesh_dim 2 true) HO HX HB HM (proj1 V) (or_introl (conj eq_refl eq_refl)) eq_refl eq_refl ltac:(discriminate) eq_refl EC E2) as (np' & Ep2 & Fp).
  rewrite Ep1 in Ep2. apply app_inv_head in Ep2. subst np'. apply Forall_forall. intros x Hx. rewrite Forall_forall in Hin, Fp. split; [apply Hin, Hx|]. apply (Fp x Hx).
Qed.
Print Assumptions C98_levelset_partial.

(** C99: in the plane, for a level set function that is not too steep, every new point of the mesh of the region is in the box, and the function is nearly
    non-positive there; or the point is in a box obtained by 16 bisections of the domain (the recursion stops) and the function is negative at its centre. *)
Theorem C99_region_partial : forall O grad fresh m n0 dom M, sound O 2 -> exact O dom -> large_box 2 dom -> moderate (o_phi O) dom M ->
  valid 2 (m_order m) (m_points m) (m_conn m) (m_wires m) -> Forall (fun p => length p = 2%nat) (m_points m) -> length (m_conn m) = (n0 * m_order m ^ 2)%nat ->
  exists m' new_points, reparam_general O grad fresh 2 false m dom = Ret m' /\ m_points m' = m_points m ++ new_points /\
    Forall (fun p => in_box dom p /\ (o_phi O p <= accuracy M \/ exists B, bisected 16 dom B /\ in_box B p /\ o_phi O (box_centre B) < 0)) new_points.
Proof.
  intros O grad fresh m n0 dom M HO HX HB HM V Rm Hn. destruct (general_points O grad fresh 2 false m n0 dom (or_introl eq_refl) HO HB V Rm Hn) as (m' & m1 & np & E & E1 & Ep & Ep1 & Hin).
  exists m', np. split; [exact E|]. split; [congruence|]. apply cells_run in E1 as (evs & refs & mp & EC & E2).
  destruct (plane_top O 2 (m_order m) false (repeat true 2) (mk_psi (tp_const 2 0%nat) (-1)) (o_psi O) dom M m m1 evs refs mp (mesh_dim 2 false) HO HX HB HM (proj1 V) (or_introl (conj eq_refl eq_refl)) eq_refl eq_refl (fun _ _ => eq_refl) eq_refl EC E2) as (np' & Ep2 & Fp).
  rewrite Ep1 in Ep2. apply app_inv_head in Ep2. subst np'. apply Forall_forall. intros x Hx. rewrite Forall_forall in Hin, Fp. split; [apply Hin, Hx|]. destruct (Fp x Hx) as [G|(B & HBs & [Hf _] & Hc)]; [left; exact G|right]. exists B. split; [exact HBs|]. split; [exact Hf|].
  rewrite centre_free in Hc; [exact Hc|]. destruct HB as (B1 & B2 & _). destruct (bisected_len _ _ _ HBs ltac:(congruence)). congruence.
Qed.
Print Assumptions C99_region_partial.

(** C100: a facet of a box of the plane: no assumption on the slope; every new point of the mesh is on the facet, and the function exceeds zero at most by the
    change over one tolerance of the length. *)
Theorem C100_segment : forall O fresh c s m n0 dom L M, (c < 2)%nat -> (s < 2)%nat -> sound O 2 -> exact O dom -> large_box 2 dom ->
  1 <= M -> (forall d, (d < 2)%nat -> nth d (bmax dom) 0 - nth d (bmin dom) 0 <= M) -> 0 <= L -> lipschitz (o_phi O) L dom ->
  valid 1 (m_order m) (m_points m) (m_conn m) (m_wires m) -> Forall (fun p => length p = 2%nat) (m_points m) -> length (m_conn m) = (n0 * m_order m ^ 1)%nat ->
  exists m' new_points, reparam_general_facet O fresh 2 (2 * Z.of_nat c + Z.of_nat s) m dom = Ret m' /\ m_points m' = m_points m ++ new_points /\
    Forall (fun p => in_box dom p /\ nth c p 0 = side_coord dom s c /\ o_phi O p <= L * M * (10 * / 2 ^ 52)) new_points.
Proof.
  intros O fresh c s m n0 dom L M Hc Hs HO HX HB M1 HMe L0 Lip V Rm Hn. destruct (facet_points O fresh 2 c s m n0 dom (or_introl eq_refl) Hc Hs HO HB V Rm Hn) as (m' & m1 & np & E & E1 & Ep & Ep1 & Hin).
  exists m', np. split; [exact E|]. split; [congruence|]. apply facet_run in E1 as (evs & refs & mp & EC & E2); [|assumption..]. 
  assert (F := segment_geo O (m_order m) dom HO HX HB (proj1 V) c s L M Hc M1 HMe L0 Lip _ evs refs (psi0_nth 2 _ _) (psi0_length 2 _ _) EC).
  destruct (run_points (o_cheb O) (2 - 1) (m_order m) _ (fun _ => False) (fun b t (Hb : False) _ => match Hb with end) evs m [] m1 mp eq_refl F E2) as (_ & np' & Ep2 & Fp).
  rewrite Ep1 in Ep2. apply app_inv_head in Ep2. subst np'. apply Forall_forall. intros x Hx. rewrite Forall_forall in Hin, Fp. destruct (Hin x Hx) as [H1 H2]. split; [exact H1|]. split; [|apply (Fp x Hx)]. rewrite H2. unfold side_coord. destruct (s =? 0)%nat; reflexivity.
Qed.
Print Assumptions C100_segment.
(** A facet of a box of the space, for a function that is not too steep. *)
Theorem C100_face_partial : forall O fresh c s m n0 dom M, (c < 3)%nat -> (s < 2)%nat -> sound O 3 -> exact O dom -> large_box 3 dom -> moderate (o_phi O) dom M ->
  valid 2 (m_order m) (m_points m) (m_conn m) (m_wires m) -> Forall (fun p => length p = 3%nat) (m_points m) -> length (m_conn m) = (n0 * m_order m ^ 2)%nat ->
  exists m' new_points, reparam_general_facet O fresh 3 (2 * Z.of_nat c + Z.of_nat s) m dom = Ret m' /\ m_points m' = m_points m ++ new_points /\
    Forall (fun p => in_box dom p /\ nth c p 0 = side_coord dom s c /\
      (o_phi O p <= accuracy M \/ exists B, bisected 16 dom B /\ in_box B p /\ nth c p 0 = side_coord B s c /\ o_phi O (set_at (box_centre B) c (side_coord B s c)) < 0)) new_points.
Proof.
  intros O fresh c s m n0 dom M Hc Hs HO HX HB HM V Rm Hn. destruct (facet_points O fresh 3 c s m n0 dom (or_intror eq_refl) Hc Hs HO HB V Rm Hn) as (m' & m1 & np & E & E1 & Ep & Ep1 & Hin).
  exists m', np. split; [exact E|]. split; [congruence|]. apply facet_run in E1 as (evs & refs & mp & EC & E2); [|assumption..].
  assert (Cs : (3%nat = 2%nat /\ set_at (repeat true 3) c false = repeat true 2) \/ (3%nat = 3%nat /\ false = false /\ exists c0, (c0 < 3)%nat /\ set_at (repeat true 3) c false = set_at (repeat true 3) c0 false)) by (right; split; [reflexivity|]; split; [reflexivity|]; exists c; auto).
  assert (Ls : length (ps_side (mk_psi (set_at (tp_const 3 0%nat) c s) (-1))) = 3%nat) by (cbn [ps_side]; rewrite set_at_length; reflexivity).
  destruct (plane_top O 3 (m_order m) false (set_at (repeat true 3) c false) (mk_psi (set_at (tp_const 3 0%nat) c s) (-1)) (o_psi O) dom M m m1 evs refs mp (3 - 1) HO HX HB HM (proj1 V) Cs eq_refl Ls ltac:(discriminate) eq_refl EC E2) as (np' & Ep2 & Fp).
  rewrite Ep1 in Ep2. apply app_inv_head in Ep2. subst np'. apply Forall_forall. intros x Hx. rewrite Forall_forall in Hin, Fp. destruct (Hin x Hx) as [H1 H2]. split; [exact H1|].
  split; [rewrite H2; unfold side_coord; destruct (s =? 0)%nat; reflexivity|]. destruct (Fp x Hx) as [G|(B & HBs & [Hf Hf2] & Hcn)]; [left; exact G|right]. exists B. destruct HB as (B1 & B2 & _). destruct (bisected_len _ _ _ HBs ltac:(congruence)) as [Q1 Q2].
  split; [exact HBs|]. split; [exact Hf|]. split.
  - destruct Hf as [Lx _]. rewrite Hf2; [|lia|rewrite set_at_nth, Nat.eqb_refl, repeat_length; destruct (Nat.ltb_spec c 3); [reflexivity|lia]]. cbn [ps_side]. rewrite set_at_nth, Nat.eqb_refl. change (length (tp_const 3 0%nat)) with 3%nat. destruct (Nat.ltb_spec c 3); [reflexivity|lia].
  - rewrite centre_fixed in Hcn by (lia || congruence). exact Hcn.
Qed.
Print Assumptions C100_face_partial.

(** Without the restriction on the slope the claims are false: in the unit square, for the function 4000 (y + x/2 - 1 + tol/2) (tol: 1e1 machine precisions), or its
    opposite, with exact roots and an exact gradient, the corner (0, 0) is a point of the mesh of the level set, or of the region. *)
Lemma steep_point sg (St : bool) : sg = 1 /\ St = true \/ sg = -1 /\ St = false -> forall grad fresh, exists m', reparam_general (steep sg) grad fresh 2 St (mk_mesh 2 [] [] []) ex_box = Ret m' /\ In [0; 0] (m_points m').
Proof.
  intros Cs grad fresh. assert (V : vm (mesh_dim 2 St) (mk_mesh 2 [] [] [])) by (split; [cbn; lia|]; split; [exists 0%nat; reflexivity|]; split; [exists 0%nat; reflexivity|]; split; constructor).
  destruct (general_points (steep sg) grad fresh 2 St (mk_mesh 2 [] [] []) 0 ex_box (or_introl eq_refl) (steep_sound sg) ex_large V (Forall_nil _) eq_refl) as (m' & m1 & np & E & E1 & Ep & _).
  exists m'. split; [exact E|]. rewrite Ep. apply cells_run in E1 as (evs & refs & mp & EC & E2). destruct (steep_insert sg St Cs evs refs EC) as (t & p & Hin). eapply run_inserts; [exact E2|exact Hin].
Qed.
Lemma bisected_within n b B dom : bisected n b B -> within b dom -> within B dom.
Proof. induction 1 as [|n b d u c Hd _ IH]; intros Wb; [exact Wb|]. apply IH. apply half_within; assumption. Qed.
Lemma steep_lip sg : sg = 1 \/ sg = -1 -> lipschitz (o_phi (steep sg)) 4000 ex_box.
Proof. intros H. apply lin_lipschitz; [reflexivity|lra|]. intros [|[|k]] Hk; cbn in Hk; try lia; cbn [nth]; destruct H as [-> | ->]; unfold Rabs; destruct (Rcase_abs _); lra. Qed.
Theorem C98_levelset_refuted : exists O, sound O 2 /\ exact O ex_box /\ large_box 2 ex_box /\ lipschitz (o_phi O) 4000 ex_box /\ (forall x y, o_phi O [x; y] = 4000 * (y + x / 2 - 1 + 10 * / 2 ^ 52 / 2)) /\
  forall grad fresh, exists m' p, reparam_general O grad fresh 2 true (mk_mesh 2 [] [] []) ex_box = Ret m' /\ In p (m_points m') /\ o_phi O p < -3999.
Proof.
  assert (T := tol_small). exists (steep 1). split; [apply steep_sound|]. split; [apply steep_exact|]. split; [exact ex_large|]. split; [apply steep_lip; auto|].
  split; [intros x y; rewrite steep_phi; change (10 * / 2 ^ 52) with default_tol; lra|].
  intros grad fresh. destruct (steep_point 1 true ltac:(auto) grad fresh) as (m' & E & Hin). exists m', [0; 0]. split; [exact E|]. split; [exact Hin|]. rewrite steep_phi. lra.
Qed.
Print Assumptions C98_levelset_refuted.
Theorem C99_region_refuted : exists O, sound O 2 /\ exact O ex_box /\ large_box 2 ex_box /\ lipschitz (o_phi O) 4000 ex_box /\ (forall x y, o_phi O [x; y] = - 4000 * (y + x / 2 - 1 + 10 * / 2 ^ 52 / 2)) /\
  forall grad fresh, exists m' p, reparam_general O grad fresh 2 false (mk_mesh 2 [] [] []) ex_box = Ret m' /\ In p (m_points m') /\ 3999 < o_phi O p /\
    forall B, bisected 16 ex_box B -> in_box B p -> 0 < o_phi O (box_centre B).
Proof.
  assert (T := tol_small). exists (steep (-1)). split; [apply steep_sound|]. split; [apply steep_exact|]. split; [exact ex_large|]. split; [apply steep_lip; auto|].
  split; [intros x y; rewrite steep_phi; change (10 * / 2 ^ 52) with default_tol; lra|].
  intros grad fresh. destruct (steep_point (-1) false ltac:(auto) grad fresh) as (m' & E & Hin). exists m', [0; 0]. split; [exact E|]. split; [exact Hin|]. split; [rewrite steep_phi; lra|].
  intros B HB [LB HB']. assert (Wb := bisected_within _ _ _ ex_box HB (wU (-1) false ltac:(auto))). destruct Wb as (W1 & W2 & W3). cbn [ex_box bmin length] in W1. unfold box_centre. rewrite W1. cbn [seq map]. rewrite steep_phi.
  assert (A := W3 0%nat ltac:(cbn; lia)). assert (C := W3 1%nat ltac:(cbn; lia)). assert (A' := HB' 0%nat ltac:(cbn; lia)). assert (C' := HB' 1%nat ltac:(cbn; lia)). cbn [ex_box bmin bmax nth] in A, C, A', C'. lra.
Qed.
Print Assumptions C99_region_refuted.

(** The same for a facet of the unit cube: for the function -4000 (y + x/2 - 1 + tol/2), which does not depend on z, the corner (0, 0, 0) is a point of the mesh of
    the facet z = 0, where the function is about 4000. *)
Lemma cube_large : large_box 3 L_Geo8.cube.
Proof. split; [reflexivity|]. split; [reflexivity|]. intros [|[|[|d]]] Hd; try lia; cbn [L_Geo8.cube bmin bmax nth]; lra. Qed.
Theorem C100_face_refuted : exists O, sound O 3 /\ exact O L_Geo8.cube /\ large_box 3 L_Geo8.cube /\ lipschitz (o_phi O) 4000 L_Geo8.cube /\ (forall x y z, o_phi O [x; y; z] = - 4000 * (y + x / 2 - 1 + 10 * / 2 ^ 52 / 2)) /\
  forall fresh, exists m' p, reparam_general_facet O fresh 3 (2 * Z.of_nat 2 + Z.of_nat 0) (mk_mesh 2 [] [] []) L_Geo8.cube = Ret m' /\ In p (m_points m') /\ nth 2 p 0 = 0 /\ 3999 < o_phi O p /\
    forall B, bisected 16 L_Geo8.cube B -> in_box B p -> 0 < o_phi O (set_at (box_centre B) 2 0).
Proof.
  assert (T := tol_small). assert (Cs : -1 = 1 /\ false = true \/ -1 = -1 /\ false = false) by (right; split; reflexivity).
  exists (L_Geo8.steep3 (-1)). split; [apply L_Geo8.steep_sound|]. split; [apply L_Geo8.steep_exact|]. split; [exact cube_large|].
  split. { apply lin_lipschitz; [reflexivity|lra|]. intros [|[|[|k]]] Hk; cbn in Hk; try lia; cbn [nth]; unfold Rabs; destruct (Rcase_abs _); lra. }
  split; [intros x y z; rewrite L_Geo8.steep_phi; change (10 * / 2 ^ 52) with default_tol; lra|].
  intros fresh. assert (V : vm (3 - 1) (mk_mesh 2 [] [] [])) by (split; [cbn; lia|]; split; [exists 0%nat; reflexivity|]; split; [exists 0%nat; reflexivity|]; split; constructor).
  destruct (facet_points (L_Geo8.steep3 (-1)) fresh 3 2 0 (mk_mesh 2 [] [] []) 0 L_Geo8.cube (or_intror eq_refl) ltac:(lia) ltac:(lia) (L_Geo8.steep_sound (-1)) cube_large V (Forall_nil _) eq_refl) as (m' & m1 & np & E & E1 & Ep & _).
  exists m', [0; 0; 0]. split; [exact E|]. split.
  - rewrite Ep. apply facet_run in E1 as (evs & refs & mp & EC & E2); [|lia|lia]. destruct (L_Geo8.steep_insert (-1) false Cs evs refs EC) as (t & p & Hin). eapply run_inserts; [exact E2|exact Hin].
  - split; [reflexivity|]. split; [rewrite L_Geo8.steep_phi; lra|].
    intros B HB [LB HB']. assert (Wb := bisected_within _ _ _ L_Geo8.cube HB (L_Geo8.wU (-1) false Cs)). destruct Wb as (W1 & W2 & W3). cbn [L_Geo8.cube bmin length] in W1. unfold box_centre. rewrite W1. cbn [seq map set_at]. rewrite L_Geo8.steep_phi.
    assert (A := W3 0%nat ltac:(cbn; lia)). assert (C := W3 1%nat ltac:(cbn; lia)). assert (A' := HB' 0%nat ltac:(cbn; lia)). assert (C' := HB' 1%nat ltac:(cbn; lia)). cbn [L_Geo8.cube bmin bmax nth] in A, C, A', C'. lra.
Qed.
Print Assumptions C100_face_refuted.

(** The hypotheses of C98, C99 are met: the unit square and the line x + y/2 = 3/5; of C100: the unit cube and the plane x + y/2 - z = 1/2. *)
Lemma unit_moderate a b n : length a = n -> (forall k, (k < n)%nat -> Rabs (nth k a 0) <= 1) -> moderate (lin a b) (mk_box (repeat 0 n) (repeat 1 n)) 1.
Proof.
  intros La Ha. split; [lra|]. split.
  - intros d Hd. cbn [bmin bmax] in *. rewrite repeat_length in Hd. rewrite !nth_repeat_lt by assumption. lra.
  - exists 1. split; [lra|]. split; [lra|]. apply lin_lipschitz; [cbn [bmin]; rewrite repeat_length; lia|lra|]. rewrite La. exact Ha.
Qed.
Example ex_levelset : exists m' new_points, reparam_general (lin_oracles [1; / 2] (3 / 5)) (fun _ => [1; / 2]) (fun _ _ => [0; 0]) 2 true (mk_mesh 4 [] [] []) ex_box = Ret m' /\ m_points m' = new_points /\
  Forall (fun p => in_box ex_box p /\ Rabs (o_phi (lin_oracles [1; / 2] (3 / 5)) p) <= accuracy 1) new_points.
Proof.
  apply (C98_levelset_partial (lin_oracles [1; / 2] (3 / 5)) _ _ (mk_mesh 4 [] [] []) 0 ex_box 1); [apply lin_sound|apply lin_exact; reflexivity|exact ex_large| | |constructor|reflexivity].
  - apply (unit_moderate [1; / 2] (3 / 5) 2 eq_refl). intros [|[|k]] Hk; try lia; cbn [nth]; rewrite Rabs_pos_eq; lra.
  - split; [cbn; lia|]. split; [exists 0%nat; reflexivity|]. split; [exists 0%nat; reflexivity|]. split; constructor.
Qed.
Example ex_face : exists m' new_points, reparam_general_facet (lin_oracles [1; / 2; -1] (/ 2)) (fun _ _ => [0; 0; 0]) 3 (2 * Z.of_nat 2 + Z.of_nat 0) (mk_mesh 4 [] [] []) (mk_box [0; 0; 0] [1; 1; 1]) = Ret m' /\ m_points m' = new_points /\
  Forall (fun p => nth 2 p 0 = 0) new_points.
Proof.
  destruct (C100_face_partial (lin_oracles [1; / 2; -1] (/ 2)) (fun _ _ => [0; 0; 0]) 2 0 (mk_mesh 4 [] [] []) 0 (mk_box [0; 0; 0] [1; 1; 1]) 1) as (m' & np & E & Ep & F); [lia|lia|apply lin_sound|apply lin_exact; reflexivity| | | |constructor|reflexivity|].
  - split; [reflexivity|]. split; [reflexivity|]. intros [|[|[|d]]] Hd; try lia; cbn [bmin bmax nth]; lra.
  - apply (unit_moderate [1; / 2; -1] (/ 2) 3 eq_refl). intros [|[|[|k]]] Hk; try lia; cbn [nth]; unfold Rabs; destruct (Rcase_abs _); lra.
  - split; [cbn; lia|]. split; [exists 0%nat; reflexivity|]. split; [exists 0%nat; reflexivity|]. split; constructor.
  - exists m', np. split; [exact E|]. split; [exact Ep|]. eapply Forall_impl; [|exact F]. intros p (_ & Hp & _). exact Hp.
Qed.
