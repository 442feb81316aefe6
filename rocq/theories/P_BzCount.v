(** Theorem on the number of cells of a Bezier reparameterization in the plane (C107). *)
From Coq Require Import Reals List Lia Lra Permutation Sorted Arith ZArith.
From Verif Require Import M_BzReparam S_BzReparam S_BzGeo S_BzCount S_General S_Mesh S_Roots L_Real L_BBox L_Point L_TensorNat L_Mesh L_Mesh3 L_Roots L_General L_General2 L_General3 L_General4 L_Reparam3 L_Geo1 L_BzReparam L_BzReparam2 L_BzReparam3 P_Scale P_BzReparam L_BzGeo1 L_BzGeo2 L_BzGeo3 L_BzGeo4 L_BzCount P_BzGeo.
Import ListNotations.
Local Close Scope Z_scope. Local Close Scope nat_scope. Local Open Scope R_scope.

Lemma insert_pt mdim m x c i m' : insert_cell_point mdim m x c i = Ret m' -> m_points m' = m_points m ++ [x].
Proof. unfold insert_cell_point. intros E. apply assert_inv in E as [_ E]. injection E as <-. reflexivity. Qed.
Lemma insert_one cheb mdim m mp t q x m' mp' : run_event cheb mdim (m, mp) (Insert t q x) = Ret (m', mp') -> length (m_points m') = S (length (m_points m)).
Proof.
  unfold run_event. cbn [fst snd]. destruct (find_tid mp t) as [c|]; cbv beta iota zeta; intros E; apply bind_inv in E as (m1 & E & E'); injection E' as <- _; apply insert_pt in E; rewrite E, app_length; cbn [length]; [lia|]. unfold allocate_cells. cbn [fst m_points]. lia.
Qed.
Lemma inserts_all cheb mdim : forall evs m mp m' mp', Forall (fun e => match e with Insert _ _ _ => True | _ => False end) evs -> foldM (run_event cheb mdim) evs (m, mp) = Ret (m', mp') -> length (m_points m') = (length (m_points m) + length evs)%nat.
Proof.
  induction evs as [|e evs IH]; intros m mp m' mp' F E; cbn [foldM] in E; [injection E as <- <-; cbn; lia|]. inversion F as [|? ? H F']; subst. destruct e as [| |t q x]; try contradiction. apply bind_inv in E as ([m1 mp1] & E1 & E). apply insert_one in E1. rewrite (IH _ _ _ _ F' E), E1. cbn [length]. lia.
Qed.

(** C107: the number of cells.  If Algoim finds the zeros along lines, and over each piece of the base the zeros of the polynomial form graphs (separated in the middle of the piece),
    then, whenever reparam_Bezier returns, the cells added for the region are as many as the layers where the polynomial is negative, over all the pieces, and those added for
    the level set as many as the graphs at which the sign changes: none is missing and none is repeated. *)
Theorem C107_bezier_cells : forall {P} (Z : bz_oracles P) phi grad fresh lev p k cs signs m n0 domain m', bz_sound Z -> algoim_exact Z p k -> cut_into Z p k cs signs -> z_empty Z p = false ->
  valid (mesh_dim 2 lev) (m_order m) (m_points m) (m_conn m) (m_wires m) -> Forall (fun x => length x = 2%nat) (m_points m) -> length (m_conn m) = (n0 * m_order m ^ mesh_dim 2 lev)%nat -> proper_box 2 domain ->
  reparam_bezier Z phi grad fresh 2 lev p m domain = Ret m' ->
  exists np np', bezier_added 2 lev phi domain m m' n0 (total (if lev then sign_changes else negative_layers) signs) np np'.
Proof.
  intros P Z phi grad fresh lev p k cs signs m n0 domain m' HZ HA HC Ez V F Hn Hb E. assert (Ev : exists evs, bz_events Z lev 2 (m_order m) [p] = Ret evs).
  { unfold reparam_bezier in E. destruct (M_Mesh.num_cells _ m); try discriminate. cbn [bind] in E. destruct (bz_events Z lev 2 (m_order m) [p]) as [evs| | |]; try discriminate. eauto. }
  destruct Ev as [evs Ee]. assert (Ha : adds (z_cheb Z) (mesh_dim 2 lev) (m_order m) (L_General3.final 2 (box01 2) Vol) True evs).
  { unfold bz_events in Ee. destruct (bz_build Z true 2 (bz_kept Z 2 [p] [])) as [[[k0 bot] lvs]| | |] eqn:Eb; try discriminate. cbn [bind fst snd] in Ee.
    pose proof (build_events Z HZ lev 2 (m_order m) _ k0 bot lvs (proj1 V) (or_introl eq_refl) Eb) as O. rewrite Ee in O. exact O. }
  destruct (rest_ok Z phi grad fresh 2 lev p m n0 domain evs HZ (or_introl eq_refl) V F Hn Hb Ee Ha) as (m'' & n & np & np' & m1 & ni0 & E' & _ & B & R1 & Ep & _ & _). rewrite E in E'. injection E' as <-.
  unfold run_events in R1. apply bind_inv in R1 as ([m2 mp] & R2 & R3). cbn [fst] in R3. injection R3 as ->. pose proof (inserts_all _ _ _ _ _ _ _ (events_inserts Z p k lev (m_order m) HA evs Ez Ee) R2) as C1.
  rewrite Ep, app_length, (events_len Z HZ p k lev (m_order m) HA cs signs HC (proj1 V) evs Ez Ee) in C1.
  assert (Ln : length np = (n * m_order m ^ mesh_dim 2 lev)%nat) by (destruct B as (mu & ni & wi & _ & B & _); exact B).
  assert (En : n = total (if lev then sign_changes else negative_layers) signs).
  { assert (Hp : (0 < m_order m ^ mesh_dim 2 lev)%nat) by (apply Nat.neq_0_lt_0, Nat.pow_nonzero; pose proof (proj1 V); lia). assert (Eq : (n * m_order m ^ mesh_dim 2 lev = total (cnt_layers lev) signs * m_order m ^ mesh_dim 2 lev)%nat) by lia. apply Nat.mul_cancel_r in Eq; [|lia].
    rewrite Eq. unfold cnt_layers. destruct lev; reflexivity. }
  rewrite En in B. eauto.
Qed.
Print Assumptions C107_bezier_cells.

(** Example: the parabola of P_BzGeo: over [0, 1/4] the polynomial is positive; over [1/4, 1/2] it is negative between the branches; over [1/2, 1] it is negative: two cells for
    the region, two for the level set. *)
Example parabola_cells : exists cs signs, cut_into par 0%nat 0 cs signs /\ total negative_layers signs = 2%nat /\ total sign_changes signs = 2%nat.
Proof.
  assert (T8 : tiny < / 8) by (unfold tiny; simpl; lra). exists [0; / 4; / 2; 1], [[true]; [true; false; true]; [false]]. split; [|split; reflexivity]. constructor.
  - repeat (constructor; [|repeat (constructor; [lra|]); constructor]). constructor.
  - intros x. split.
    + intros [<-|[<-|[<-|[<-|[]]]]]; [left; reflexivity|exact cut_quarter|exact cut_half|right; left; reflexivity].
    + intros H. apply par_cut in H. cbn [In]. intuition.
  - reflexivity.
  - intros i Hi. cbn [length] in Hi. destruct i as [|[|[|i]]]; [| | |lia]; cbn [nth].
    + exists []. destruct (outside_layers 0 (/ 4) true) as (A & B & _); [left; auto|]. auto.
    + exists [lower; upper]. destruct inside_layers as (A & B & _). auto.
    + exists []. destruct (outside_layers (/ 2) 1 false) as (A & B & _); [right; auto|]. auto.
Qed.
