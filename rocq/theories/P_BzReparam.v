(** Theorems for the Bezier reparameterization (C94 - C96). *)
From Coq Require Import Reals List Lia Lra Permutation Arith ZArith.
From Verif Require Import M_BzReparam S_BzReparam S_General S_Mesh S_Roots L_Real L_BBox L_Point L_TensorNat L_Mesh L_Mesh3 L_Roots L_Orient L_Orient3 L_General L_General2 L_General3 L_General4 L_Reparam3 L_BzReparam L_BzReparam2 L_BzReparam3 P_Scale.
Import ListNotations.
Local Close Scope Z_scope. Local Close Scope R_scope. Local Open Scope nat_scope.

Lemma tol_is : reparam_tol = (10000 * / 2 ^ 52)%R.
Proof. reflexivity. Qed.
Section All.
Context {P : Type}.
Lemma rest_ok (Z : bz_oracles P) phi grad fresh range lev p m n0 domain evs : bz_sound Z -> range = 2 \/ range = 3 -> valid (mesh_dim range lev) (m_order m) (m_points m) (m_conn m) (m_wires m) -> Forall (fun x => length x = range) (m_points m) ->
  length (m_conn m) = n0 * m_order m ^ mesh_dim range lev -> proper_box range domain -> bz_events Z lev range (m_order m) [p] = Ret evs ->
  adds (z_cheb Z) (mesh_dim range lev) (m_order m) (L_General3.final range (box01 range) Vol) True evs ->
  exists m' k np np' m1 ni0, reparam_bezier Z phi grad fresh range lev p m domain = Ret m' /\ valid (mesh_dim range lev) (m_order m') (m_points m') (m_conn m') (m_wires m') /\
    bezier_added range lev phi domain m m' n0 k np np' /\ run_events (z_cheb Z) (mesh_dim range lev) m evs = Ret m1 /\ m_points m1 = m_points m ++ np /\ m_conn m1 = m_conn m ++ ni0 /\ length ni0 = k * m_order m ^ mesh_dim range lev.
Proof.
  intros HZ Hr V F Hn (L1 & L2 & Hd) Ee Ha. destruct (after_events Z lev range phi grad fresh m n0 domain evs Hr V F Hn L1 L2 Hd Ha) as (m' & mu & m1 & k & np & np' & ni & ni0 & wi & E & E1 & CA & Hk & V' & _ & RA & Ln & A & B & C & D & G & H).
  exists m', k, np, np', m1, ni0. split; [|split; [exact V'|split; [|split; [exact E1|split; [apply CA|split; [apply CA|exact Hk]]]]]].
  - unfold reparam_bezier. rewrite Ee. cbn [bind]. exact E.
  - exists mu, ni, wi. rewrite tol_is in RA. repeat (split; [assumption|]). assumption.
Qed.
Lemma steady_stray (Z : bz_oracles P) range polys k bot lvs : bz_build Z true range polys = Ret (k, bot, lvs) -> steady Z range polys -> ~ stray Z bot lvs.
Proof.
  intros E S [Hb U]. destruct lvs as [|l up]; [exact U|]. destruct U as (pt & i & p & Hp & Hi & Hne). apply Hne. apply in_indexed in Hi as [_ Hi]. apply nth_error_In in Hi. exact (S k bot l up E Hb p pt Hi Hp).
Qed.
End All.

(** C95: whenever reparam_Bezier returns, the mesh is valid, keeps its content, and has gained whole cells of new, unshared points inside the domain, and their wires. *)
Theorem C95_bezier_region : forall {P} (Z : bz_oracles P) phi grad fresh range lev p m n0 domain m', bz_sound Z -> range = 2 \/ range = 3 ->
  valid (mesh_dim range lev) (m_order m) (m_points m) (m_conn m) (m_wires m) -> Forall (fun x => length x = range) (m_points m) ->
  length (m_conn m) = n0 * m_order m ^ mesh_dim range lev -> proper_box range domain ->
  reparam_bezier Z phi grad fresh range lev p m domain = Ret m' ->
  valid (mesh_dim range lev) (m_order m') (m_points m') (m_conn m') (m_wires m') /\ exists k np np', bezier_added range lev phi domain m m' n0 k np np'.
Proof.
  intros P Z phi grad fresh range lev p m n0 domain m' HZ Hr V F Hn Hb E.
  assert (Ev : exists evs, bz_events Z lev range (m_order m) [p] = Ret evs).
  { unfold reparam_bezier in E. destruct (M_Mesh.num_cells _ m); try discriminate. cbn [bind] in E. destruct (bz_events Z lev range (m_order m) [p]) as [evs| | |]; try discriminate. eauto. }
  destruct Ev as [evs Ee]. assert (Ha : adds (z_cheb Z) (mesh_dim range lev) (m_order m) (L_General3.final range (box01 range) Vol) True evs).
  { unfold bz_events in Ee. destruct (bz_build Z true range (bz_kept Z range [p] [])) as [[[k bot] lvs]| | |] eqn:Eb; try discriminate. cbn [bind fst snd] in Ee.
    pose proof (build_events Z HZ lev range (m_order m) _ k bot lvs (proj1 V) Hr Eb) as O. rewrite Ee in O. exact O. }
  destruct (rest_ok Z phi grad fresh range lev p m n0 domain evs HZ Hr V F Hn Hb Ee Ha) as (m'' & k & np & np' & m1 & ni0 & E' & V' & B & _). rewrite E in E'. injection E' as <-. split; [exact V'|]. eauto.
Qed.
Print Assumptions C95_bezier_region.

(** C96, partial: reparam_Bezier never throws (no assertion fails, no key is missing) if there is always a best direction, and returns if the polynomials
    of the lowest object have the same number of roots over the whole of a tensor-product base.  Missing: the other polynomials (see the refutation). *)
Theorem C96_bezier_returns_partial : forall {P} (Z : bz_oracles P) phi grad fresh range lev p m n0 domain, bz_sound Z -> scored Z -> range = 2 \/ range = 3 ->
  valid (mesh_dim range lev) (m_order m) (m_points m) (m_conn m) (m_wires m) -> Forall (fun x => length x = range) (m_points m) ->
  length (m_conn m) = n0 * m_order m ^ mesh_dim range lev -> proper_box range domain ->
  ((exists m', reparam_bezier Z phi grad fresh range lev p m domain = Ret m') \/ reparam_bezier Z phi grad fresh range lev p m domain = UB) /\
  (z_empty Z p = true \/ steady Z range [p] -> exists m', reparam_bezier Z phi grad fresh range lev p m domain = Ret m').
Proof.
  intros P Z phi grad fresh range lev p m n0 domain HZ HS Hr V F Hn Hb.
  destruct (build_ok Z HZ HS range true (bz_kept Z range [p] [])) as ([[k bot] lvs] & Eb & _).
  pose proof (build_events Z HZ lev range (m_order m) _ k bot lvs (proj1 V) Hr Eb) as O.
  assert (Ee : bz_events Z lev range (m_order m) [p] = reparam_events Z lev range (m_order m) bot lvs) by (unfold bz_events; rewrite Eb; reflexivity).
  destruct (reparam_events Z lev range (m_order m) bot lvs) as [evs| | |] eqn:Er; cbn [okub] in O; try contradiction.
  - destruct (rest_ok Z phi grad fresh range lev p m n0 domain evs HZ Hr V F Hn Hb Ee O) as (m' & k' & np & np' & m1 & ni0 & E' & _). split; [left; eauto|eauto].
  - assert (Eu : reparam_bezier Z phi grad fresh range lev p m domain = UB).
    { unfold reparam_bezier. rewrite (num_cells_ok _ m n0) by (assumption || (unfold pts_per_cell; apply pow_pos; apply V)). cbn [bind]. rewrite Ee. reflexivity. }
    split; [right; exact Eu|]. intros H. exfalso. destruct H as [H|H].
    + cbn [bz_kept] in Eb. rewrite H in Eb. assert (E0 : (k, bot, lvs) = (range, range, [])) by (destruct (Rltb 0 (z_eval Z p (repeat (/ 2)%R range))) in Eb; destruct Hr as [-> | ->]; cbn in Eb; congruence). injection E0 as -> -> ->. destruct O as [_ []].
    + destruct (z_empty Z p) eqn:Ez; [|apply (steady_stray Z range _ k bot lvs Eb); [|exact O]; cbn [bz_kept]; rewrite Ez; exact H].
      cbn [bz_kept] in Eb. rewrite Ez in Eb. assert (E0 : (k, bot, lvs) = (range, range, [])) by (destruct (Rltb 0 (z_eval Z p (repeat (/ 2)%R range))) in Eb; destruct Hr as [-> | ->]; cbn in Eb; congruence). injection E0 as -> -> ->. destruct O as [_ []].
Qed.
Print Assumptions C96_bezier_returns_partial.

(** C94, partial: a polynomial with no zero in the box.  Its level set adds nothing; if it is negative the region is one cell, whose points are those of add_full_cell on the
    domain.  Missing: a positive polynomial (see the refutation). *)
Theorem C94_no_zero_partial : forall {P} (Z : bz_oracles P) phi grad fresh range lev p m n0 domain, bz_sound Z -> range = 2 \/ range = 3 ->
  valid (mesh_dim range lev) (m_order m) (m_points m) (m_conn m) (m_wires m) -> Forall (fun x => length x = range) (m_points m) ->
  length (m_conn m) = n0 * m_order m ^ mesh_dim range lev -> proper_box range domain -> z_empty Z p = true ->
  (lev = true \/ (z_eval Z p (repeat (/ 2) range) <= 0)%R) ->
  exists m' k np np', reparam_bezier Z phi grad fresh range lev p m domain = Ret m' /\ bezier_added range lev phi domain m m' n0 k np np' /\
    (if lev then k = 0 /\ np' = [] else k = 1 /\ np = map (cell_point (z_cheb Z) (m_order m) (box01 range)) (tp_all (tp_const range (m_order m)))).
Proof.
  intros P Z phi grad fresh range lev p m n0 domain HZ Hr V F Hn Hb Ez _.
  assert (Eb : bz_build Z true range (bz_kept Z range [p] []) = Ret (range, range, [])) by (cbn [bz_kept]; rewrite Ez; destruct (Rltb _ _); destruct Hr as [-> | ->]; reflexivity).
  pose proof (build_events Z HZ lev range (m_order m) _ _ _ _ (proj1 V) Hr Eb) as O. unfold reparam_events in O. cbn [okub] in O.
  assert (Ee : bz_events Z lev range (m_order m) [p] = Ret (if lev then [] else [Full (box01 range)])) by (unfold bz_events; rewrite Eb; reflexivity).
  destruct (rest_ok Z phi grad fresh range lev p m n0 domain _ HZ Hr V F Hn Hb Ee O) as (m' & k & np & np' & m1 & ni0 & E' & _ & B & R & Ep & Ec & Lk).
  exists m', k, np, np'. split; [exact E'|]. split; [exact B|]. pose proof (pow_pos (m_order m) (mesh_dim range lev) (proj1 V)) as Hpos. destruct lev.
  - injection R as <-. assert (En : np = []) by (rewrite <- app_nil_r in Ep at 1; apply app_inv_head in Ep; congruence). assert (Ei : ni0 = []) by (rewrite <- app_nil_r in Ec at 1; apply app_inv_head in Ec; congruence).
    rewrite Ei in Lk. cbn [length] in Lk. destruct B as (mu & ni & wi & _ & _ & _ & _ & _ & _ & F2 & _). subst np. inversion F2. split; [nia|reflexivity].
  - unfold run_events in R. cbn [foldM run_event fst snd mesh_dim] in R. unfold add_full_cell in R. rewrite add_loop in R. rewrite tp_all_length, tp_size_const in R.
    rewrite (num_cells_ok range _ (n0 + 1)) in R; unfold pts_per_cell; cbn [m_order m_conn]; [|exact Hpos|rewrite app_length, seq_length, Hn; cbn [mesh_dim]; lia]. cbn [bind fst] in R. injection R as <-. cbn [m_points m_conn] in Ep, Ec.
    apply app_inv_head in Ep, Ec. split; [|symmetry; exact Ep]. rewrite <- Ec, seq_length in Lk. cbn [mesh_dim] in Lk, Hpos. nia.
Qed.
Print Assumptions C94_no_zero_partial.

(** Examples: the polynomial c (y - h(x)) on the unit square, with exact roots and no subdivision of the base (its restrictions to the sides y = 0 and y = 1 have no zero). *)
Definition graph (h : R -> R) (c : R) (empty : bool) : bz_oracles unit :=
  mk_bz unit (fun _ _ _ => true) (fun _ pt _ => filter (fun r => (Rleb 0 r && Rleb r 1)%bool) [h (nth 0 pt 0%R)]) (fun _ _ => true) (fun _ x => (c * (nth 0 x 0 - h (nth 1 x 0)))%R) (fun _ => empty)
    (fun dim _ => if (dim =? 0)%nat then None else Some 0) (fun _ _ => false) (fun _ _ => []) L_Roots.rsort_ins (fun i n => (INR i / INR (n - 1))%R).
Example graph_sound h c e : bz_sound (graph h c e).
Proof.
  constructor; cbn [graph z_roots z_sort z_cheb z_choose].
  - intros _ pt _. apply Forall_forall. intros r Hr. apply filter_In in Hr as [_ H]. apply andb_prop in H as [H1 H2]. apply Rleb_true in H1, H2. split; assumption.
  - exact L_Roots.rsort_ins_ok.
  - intros i n Hi. destruct n as [|[|n]]; [lia|assert (i = 0) by lia; subst; cbn; unfold Rdiv; rewrite Rmult_0_l; lra|].
    replace (Datatypes.S (Datatypes.S n) - 1) with (Datatypes.S n) by lia. assert (0 < INR (Datatypes.S n))%R by (apply lt_0_INR; lia). assert (INR i <= INR (Datatypes.S n))%R by (apply le_INR; lia). pose proof (pos_INR i).
    split; [apply Rmult_le_pos; [assumption|left; apply Rinv_0_lt_compat; assumption]|]. apply (Rmult_le_reg_r (INR (Datatypes.S n))); [assumption|]. unfold Rdiv. rewrite Rmult_assoc, Rinv_l by lra. lra.
  - intros [|dim] phi k H; [discriminate|]. injection H as <-. lia.
Qed.
Example graph_scored h c e : scored (graph h c e).
Proof. intros [|dim] phi Hd _; [lia|discriminate]. Qed.
Definition m00 : mesh := mk_mesh 2 [] [] [].
Definition sq : bbox := mk_box [0; 0]%R [1; 2]%R.
Example m00_valid dim : valid dim 2 [] [] [].
Proof. split; [lia|]. split; [exists 0; reflexivity|]. split; [exists 0; reflexivity|]. split; constructor. Qed.
Example sq_proper : proper_box 2 sq.
Proof. split; [reflexivity|]. split; [reflexivity|]. intros [|[|d]] Hd; try lia; cbn; lra. Qed.
(** A non-trivial case of the hypotheses: the line y = 1/2 crosses the whole square, away from its sides y = 0 and y = 1. *)
Lemma half_in : (Rleb 0 (/ 2) && Rleb (/ 2) 1)%bool = true.
Proof. apply andb_true_intro. split; apply Rleb_true; lra. Qed.
Example steady_meets : steady (graph (fun _ => (/ 2)%R) 1 false) 2 [tt].
Proof.
  intros k bot l up E Hb q pt Hq Hp. cbn in E. injection E as <- <- <- <-. unfold bz_roots. cbn [graph z_line z_roots z_mask v_dir filter]. rewrite half_in. cbn [filter].
  replace (tol_equal (10 * / 2 ^ 52) (/ 2) 0) with false; [replace (tol_equal (10 * / 2 ^ 52) (/ 2) 1) with false; [reflexivity|]|]; symmetry; unfold tol_equal; unfold Rleb; destruct (Rle_dec _ _) as [H|H]; try reflexivity; exfalso; revert H; unfold Rabs; destruct (Rcase_abs _); lra.
Qed.
Example C96_meets : exists m', reparam_bezier (graph (fun _ => (/ 2)%R) 1 false) (fun x => (nth 1 x 0 - / 2)%R) (fun _ => [0; 1]%R) (fun _ _ => [0; 0]%R) 2 false tt m00 sq = Ret m'.
Proof. apply (C96_bezier_returns_partial _ _ _ _ 2 false tt m00 0 sq (graph_sound _ _ _) (graph_scored _ _ _) (or_introl eq_refl) (m00_valid 2) (Forall_nil _) eq_refl sq_proper). right. apply steady_meets. Qed.
Example C95_meets : exists m' k np np', reparam_bezier (graph (fun _ => (/ 2)%R) 1 false) (fun x => (nth 1 x 0 - / 2)%R) (fun _ => [0; 1]%R) (fun _ _ => [0; 0]%R) 2 false tt m00 sq = Ret m' /\
  bezier_added 2 false (fun x => (nth 1 x 0 - / 2)%R) sq m00 m' 0 k np np'.
Proof.
  destruct C96_meets as [m' E]. destruct (C95_bezier_region _ _ _ _ 2 false tt m00 0 sq m' (graph_sound _ _ _) (or_introl eq_refl) (m00_valid 2) (Forall_nil _) eq_refl sq_proper E) as (_ & k & np & np' & B). exists m', k, np, np'. split; assumption.
Qed.
Example C94_meets : exists m' k np np', reparam_bezier (graph (fun _ => 2%R) 1 true) (fun x => (nth 1 x 0 - 2)%R) (fun _ => [0; 1]%R) (fun _ _ => [0; 0]%R) 2 false tt m00 sq = Ret m' /\
  bezier_added 2 false (fun x => (nth 1 x 0 - 2)%R) sq m00 m' 0 k np np' /\ k = 1.
Proof.
  destruct (C94_no_zero_partial (graph (fun _ => 2%R) 1 true) (fun x => (nth 1 x 0 - 2)%R) (fun _ => [0; 1]%R) (fun _ _ => [0; 0]%R) 2 false tt m00 0 sq (graph_sound _ _ _) (or_introl eq_refl) (m00_valid 2) (Forall_nil _) eq_refl sq_proper eq_refl) as (m' & k & np & np' & E & B & K & _).
  - right. cbn. lra.
  - exists m', k, np, np'. auto.
Qed.

(** C94, refuted for a positive polynomial: y + 1 > 0 on the unit square has no zero there, and the region where it is negative, which is empty, is given one cell. *)
Theorem C94_positive_refuted : exists (Z : bz_oracles unit) phi, bz_sound Z /\ z_empty Z tt = true /\ (forall x, in_cube 2 x -> (z_eval Z tt x > 0)%R) /\ (forall x, in_cube 2 x -> (phi x = z_eval Z tt (rev x))%R) /\
  exists m' k np np', reparam_bezier Z phi (fun _ => [0; 1]%R) (fun _ _ => [0; 0]%R) 2 false tt m00 sq = Ret m' /\ bezier_added 2 false phi sq m00 m' 0 k np np' /\ k = 1.
Proof.
  exists (graph (fun _ => (-1)%R) 1 true), (fun x => (nth 1 x 0 + 1)%R). split; [apply graph_sound|]. split; [reflexivity|]. split; [|split].
  - intros x [L F]. destruct x as [|a [|b [|]]]; try discriminate. inversion F; subst. cbn. lra.
  - intros x [L F]. destruct x as [|a [|b [|]]]; try discriminate. cbn. lra.
  - set (Zg := graph (fun _ => (-1)%R) 1 true).
    destruct (rest_ok Zg (fun x => (nth 1 x 0 + 1)%R) (fun _ => [0; 1]%R) (fun _ _ => [0; 0]%R) 2 false tt m00 0 sq [Full (box01 2)] (graph_sound _ _ _) (or_introl eq_refl) (m00_valid 2) (Forall_nil _) eq_refl sq_proper) as (m' & k & np & np' & m1 & ni0 & E & _ & B & R & Ep & Ec & Lk).
    + unfold bz_events, Zg. cbn [bz_kept z_empty graph]. destruct (Rltb _ _); reflexivity.
    + pose proof (build_events Zg (graph_sound _ _ _) false 2 2 [] 2 2 [] ltac:(lia) (or_introl eq_refl) eq_refl) as O. exact O.
    + exists m', k, np, np'. split; [exact E|]. split; [exact B|]. cbn in R. injection R as <-. cbn in Ec. subst ni0. cbn in Lk. lia.
Qed.
Print Assumptions C94_positive_refuted.

(** C96, refuted: undefined behaviour.  The parabola y = 10^-15 + x^2 / 2 crosses the whole square, and there is one root over every x; at x = 0 the root is closer to the side
    y = 0 than the tolerance, the polynomial 10^6 (y - 10^-15 - x^2 / 2) is not small there, and the first backup strategy reads a point of dimension one in the direction 1. *)
Theorem C96_bezier_ub_refuted : exists (Z : bz_oracles unit), bz_sound Z /\ scored Z /\
  (forall x y, (0 <= x <= 1)%R -> (0 <= y <= 1)%R -> (In y (z_roots Z tt [x] 0) <-> z_eval Z tt [y; x] = 0%R)) /\
  forall phi grad fresh lev, reparam_bezier Z phi grad fresh 2 lev tt m00 sq = UB.
Proof.
  set (h := fun x : R => (/ 10 ^ 15 + x * x / 2)%R). exists (graph h (10 ^ 6)%R false). split; [apply graph_sound|]. split; [apply graph_scored|]. split.
  - intros x y Hx Hy. cbn [graph z_roots z_eval nth]. rewrite filter_In. split.
    + intros [[<-|[]] _]. ring.
    + intros H. assert (Ey : h x = y) by (apply Rmult_integral in H as [H|H]; [exfalso; revert H; apply pow_nonzero; lra|lra]). split; [left; exact Ey|]. apply andb_true_intro. split; apply Rleb_true; lra.
  - intros phi grad fresh lev. set (G := graph h (10 ^ 6) false).
    assert (Ub : bz_events G lev 2 2 [tt] = UB); [|unfold reparam_bezier; rewrite (num_cells_ok _ m00 0) by (reflexivity || (unfold pts_per_cell; apply pow_pos; cbn; lia)); cbn [bind]; change (m_order m00) with 2; rewrite Ub; reflexivity].
    unfold bz_events. change (bz_build G true 2 (bz_kept G 2 [tt] [])) with (Ret (0, 1, [mk_bl 2 [tt] 0 1])). cbn [bind fst snd]. set (l := mk_bl 2 [tt] 0 1). unfold reparam_events. cbv beta iota zeta. cbn [Nat.eqb].
    destruct (ref_start G (graph_sound _ _ _) lev l [] (repeat (/ 2)%R 1) (tp_const 1 0) (Forall_nil _)) as (iv & rup & E & C & _ & Hn). rewrite E. cbn [bind].
    destruct C as [C _]. destruct (C (tp_const 1 0) iv eq_refl) as [[(mid & Em & _) _] _]. specialize (Hn 0 tt (or_introl eq_refl)). clear E C.
    assert (H0 : (Rleb 0 (h (/ 2)%R) && Rleb (h (/ 2)%R) 1)%bool = true) by (apply andb_true_intro; unfold h; split; apply Rleb_true; lra).
    unfold bz_roots in Hn. cbn [G graph z_line z_roots z_mask l v_dir repeat nth filter] in Hn. fold G in Hn. rewrite H0 in Hn. cbn [filter length] in Hn. rewrite Em in Hn. cbn [ent ri_roots_ids] in Hn. 
    change (tp_all (tp_const 1 2)) with [[0]; [1]]. cbn [foreach]. cbn [bz_process]. unfold intervals_at. change (find_tid [(tp_const 1 0, iv)] (tp_const 1 0)) with (Some iv). cbn [l v_dim Nat.eqb]. fold l.
    assert (Us : forall pt, pt = [0%R] -> similar_intervals G l iv pt = UB).
    { intros pt ->. unfold similar_intervals. assert (Lm : length mid <> 0) by (intros Hz; destruct mid; [discriminate Hn|discriminate Hz]). rewrite Em. cbn [ent ri_roots]. rewrite map_length, full_len. destruct (Nat.eqb_spec (length mid + 2) 2); [lia|].
      change (indexed l) with [(0, tt)]. cbn [foldM fst snd]. unfold similar_roots. rewrite Em. cbn [ent ri_roots ri_func_ids]. rewrite !map_length, Nat.leb_refl. cbn [assert_]. rewrite combine_fst_snd.
      assert (Lf : length (filter (fun e : R * Z => (snd e =? Z.of_nat 0)%Z) (full_list (fo (length (v_phi l))) mid)) = 1) by (unfold cnt in Hn; rewrite <- Hn; clear; induction (full_list (fo (length (v_phi l))) mid) as [|e q IH]; [reflexivity|]; cbn [filter map]; destruct (snd e =? Z.of_nat 0)%Z; cbn [length]; congruence).
      rewrite !Lf. set (rr := map fst (filter _ _)). assert (Lr : length rr = 1) by (unfold rr; rewrite map_length; exact Lf).
      destruct rr as [|r0 [|r1 rr]]; try discriminate. cbv beta iota zeta.
      assert (Hc : complete_roots G l iv tt [r0] [0%R] = []).
      { unfold complete_roots, bz_roots. cbn [G graph z_line z_roots z_mask z_eval l v_dir nth filter ins_at firstn skipn app]. fold G. assert (h0 : h 0%R = (/ 10 ^ 15)%R) by (unfold h; lra). rewrite !h0.
        assert (B : (Rleb 0 (/ 10 ^ 15)%R && Rleb (/ 10 ^ 15)%R 1)%bool = true) by (apply andb_true_intro; split; apply Rleb_true; lra). rewrite B. cbn [filter].
        assert (T0 : tol_equal default_tol (/ 10 ^ 15)%R 0 = true) by (unfold tol_equal; apply Rleb_true; unfold default_tol, eps, Rabs; destruct (Rcase_abs _); lra). rewrite T0. cbn [orb negb length Nat.ltb Nat.leb].
        assert (T1 : tol_equal default_tol (Rabs (10 ^ 6 * (0 - / 10 ^ 15))%R) 0 = false) by (unfold tol_equal, Rleb; destruct (Rle_dec _ _) as [A|A]; [exfalso; revert A; unfold default_tol, eps, Rabs; repeat destruct (Rcase_abs _); lra|reflexivity]).
        assert (T2 : tol_equal default_tol (Rabs (10 ^ 6 * (1 - / 10 ^ 15))%R) 0 = false) by (unfold tol_equal, Rleb; destruct (Rle_dec _ _) as [A|A]; [exfalso; revert A; unfold default_tol, eps, Rabs; repeat destruct (Rcase_abs _); lra|reflexivity]).
        rewrite T1, T2. reflexivity. }
      rewrite Hc. reflexivity. }
    rewrite Us; [reflexivity|]. cbn [map]. f_equal. unfold node01, use_chebyshev. cbn. lra.
Qed.
Print Assumptions C96_bezier_ub_refuted.
