(** Position of the points: from the construction to the mesh. *)
From Coq Require Import Reals List Lia Lra Permutation Sorted Arith ZArith.
From Verif Require Import M_Reparam M_General S_General S_Geo S_Mesh S_Roots L_Real L_BBox L_Point L_TensorNat L_Mesh L_Mesh5 L_Roots P_Roots L_General L_General2 L_General3 L_General4 L_General5 L_General6 L_General7 L_Orient L_Orient3 L_Reparam L_Reparam2 L_Reparam3 L_Geo1 L_Geo2 L_Geo3 L_Geo4 P_General.
Import ListNotations.
Local Close Scope Z_scope. Local Close Scope nat_scope. Local Open Scope R_scope.

Lemma general_points O grad fresh range (S : bool) m n0 dom : (range = 2 \/ range = 3)%nat -> sound O range -> large_box range dom -> vm (mesh_dim range S) m -> rangem range m ->
  length (m_conn m) = (n0 * m_order m ^ mesh_dim range S)%nat ->
  exists m' m1 np, reparam_general O grad fresh range S m dom = Ret m' /\ reparam_cells O range S m dom = Ret m1 /\ m_points m' = m_points m1 /\ m_points m1 = m_points m ++ np /\ Forall (in_box dom) np.
Proof.
  intros Hr HO HL V Rm Hn. set (dim := mesh_dim range S) in *.
  destruct (reparam_cells_ok O range S m n0 dom Hr HO HL (proj1 V) Hn) as (m1 & np & ni & E1 & CA & Hex). fold dim in CA.
  pose proof (added_vm dim _ m m1 np ni V CA) as V1. assert (CA' := CA). destruct CA' as (A & B & C & D & (k & Hk) & F & G & I).
  assert (HPb : forall p, in_box dom p -> length p = range) by (intros p [Lp _]; rewrite Lp; apply HL).
  assert (Ln : length (m_conn m1) = ((n0 + k) * m_order m1 ^ dim)%nat) by (rewrite A, C, app_length; lia).
  assert (Hdim : (dim = 1 \/ dim = 2 \/ dim = 3)%nat) by (unfold dim, mesh_dim; destruct S; lia).
  assert (HL' : exists decide, orient_new O grad fresh range S m1 (seq n0 k) = orient_loop dim decide 0 (seq n0 k) m1).
  { unfold orient_new, dim, mesh_dim. destruct S; [apply orient_with_loop|apply orient_cells_loop]; apply V1. }
  destruct HL' as (decide & EL). destruct (loop_reordered dim decide m1 n0 k ltac:(lia) V1 Ln) as (m2 & E2 & Re).
  destruct (finish_ok dim range (in_box dom) (o_phi O) reparam_tol dom m m1 m2 n0 np ni Hr Hdim V Rm (proj1 HL) (proj1 (proj2 HL)) Hn HPb CA Re k Hk) as (m' & ni' & wi & E3 & V' & Rm' & Ln' & RA & Ep & Ec).
  exists m', m1, np. split; [|split; [exact E1|split; [|split; [exact B|exact I]]]].
  - unfold reparam_general. fold dim. rewrite (num_cells_ok dim m n0) by (assumption || (unfold pts_per_cell; apply pow_pos; apply V)). cbn [bind]. rewrite E1. cbn [bind].
    rewrite (num_cells_ok dim m1 (n0 + k)) by (assumption || (unfold pts_per_cell; apply pow_pos; apply V1)). cbn [bind]. replace (n0 + k - n0)%nat with k by lia. rewrite EL, E2. cbn [bind]. exact E3.
  - rewrite Ep. apply Re.
Qed.
Lemma facet_points O fresh range c s m n0 dom : (range = 2 \/ range = 3)%nat -> (c < range)%nat -> (s < 2)%nat -> sound O range -> large_box range dom -> vm (range - 1) m -> rangem range m ->
  length (m_conn m) = (n0 * m_order m ^ (range - 1))%nat ->
  let facet := (2 * Z.of_nat c + Z.of_nat s)%Z in
  exists m' m1 np, reparam_general_facet O fresh range facet m dom = Ret m' /\ reparam_facet_cells O range facet m dom = Ret m1 /\ m_points m' = m_points m1 /\ m_points m1 = m_points m ++ np /\
    Forall (fun x => in_box dom x /\ nth c x 0%R = nth c (if (s =? 0)%nat then bmin dom else bmax dom) 0%R) np.
Proof.
  intros Hr Hc Hs HO HL V Rm Hn facet. set (dim := (range - 1)%nat) in *.
  destruct (reparam_facet_ok O range c s m n0 dom Hr Hc Hs HO HL (proj1 V) Hn) as (m1 & np & ni & E1 & CA0 & Hex). fold dim facet in CA0, E1.
  assert (CA : cells_added dim (fun x => in_box dom x /\ nth c x 0%R = nth c (if (s =? 0)%nat then bmin dom else bmax dom) 0%R) m m1 np ni).
  { eapply added_weaken; [|exact CA0]. intros x [Hx1 Hx2]. split; [exact Hx1|]. rewrite Hx2. unfold side_of, lo, hi. destruct (s =? 0)%nat; reflexivity. } clear CA0.
  pose proof (added_vm dim _ m m1 np ni V CA) as V1. assert (CA' := CA). destruct CA' as (A & B & C & D & (k & Hk) & F & G & I).
  assert (HPb : forall p, in_box dom p /\ nth c p 0%R = nth c (if (s =? 0)%nat then bmin dom else bmax dom) 0%R -> length p = range) by (intros p [[Lp _] _]; rewrite Lp; apply HL).
  assert (Ln : length (m_conn m1) = ((n0 + k) * m_order m1 ^ dim)%nat) by (rewrite A, C, app_length; lia).
  assert (Hdim : (dim = 1 \/ dim = 2 \/ dim = 3)%nat) by (unfold dim; lia).
  assert (HL' : exists decide, orient_facet (o_cheb O) fresh dim m1 facet (seq n0 k) = orient_loop dim decide 0 (seq n0 k) m1).
  { unfold orient_facet, facet_const_dir, facet_side, facet. rewrite !assert_true by (apply andb_true_intro; split; [apply Z.leb_le|apply Z.ltb_lt]; unfold dim; lia). cbn [bind]. apply orient_with_loop. apply V1. }
  destruct HL' as (decide & EL). destruct (loop_reordered dim decide m1 n0 k ltac:(lia) V1 Ln) as (m2 & E2 & Re).
  destruct (finish_ok dim range _ (o_phi O) reparam_tol dom m m1 m2 n0 np ni Hr Hdim V Rm (proj1 HL) (proj1 (proj2 HL)) Hn HPb CA Re k Hk) as (m' & ni' & wi & E3 & V' & Rm' & Ln' & RA & Ep & Ec).
  exists m', m1, np. split; [|split; [exact E1|split; [|split; [exact B|exact I]]]].
  - unfold reparam_general_facet. fold dim. rewrite (num_cells_ok dim m n0) by (assumption || (unfold pts_per_cell; apply pow_pos; apply V)). cbn [bind]. rewrite E1. cbn [bind].
    rewrite (num_cells_ok dim m1 (n0 + k)) by (assumption || (unfold pts_per_cell; apply pow_pos; apply V1)). cbn [bind]. replace (n0 + k - n0)%nat with k by lia. rewrite EL, E2. cbn [bind]. exact E3.
  - rewrite Ep. apply Re.
Qed.
(** The points of the events are in the mesh. *)
Lemma run_inserts cheb mdim t p x : forall evs m mp m' mp', foldM (run_event cheb mdim) evs (m, mp) = Ret (m', mp') -> In (Insert t p x) evs -> In x (m_points m').
Proof.
  assert (K : forall evs m mp m' mp', foldM (run_event cheb mdim) evs (m, mp) = Ret (m', mp') -> exists np, m_points m' = m_points m ++ np).
  { intros evs m mp m' mp' E. destruct (run_points cheb mdim (m_order m) (fun _ => True) (fun _ => True) ltac:(auto) evs m mp m' mp' eq_refl) as [_ (np & H & _)]; [|exact E|exists np; exact H]. apply Forall_forall. intros e _. destruct e; exact I. }
  induction evs as [|e evs IH]; intros m mp m' mp' E [->|Hin] || intros ? ? ? ? ? []; cbn [foldM] in E; apply bind_inv in E as ([m1 mp1] & E1 & E2); [|eapply IH; eassumption].
  destruct (K _ _ _ _ _ E2) as (np & ->). apply in_or_app. left. cbn [run_event fst snd] in E1. destruct (find_tid mp t) as [c|]; apply bind_inv in E1 as (m2 & E1 & E3); injection E3 as <- _; unfold insert_cell_point, allocate_cells in E1; cbn [fst snd] in E1; apply assert_inv in E1 as [_ E1]; injection E1 as <-; cbn [m_points]; apply in_or_app; right; left; reflexivity.
Qed.

(** ** The first box *)
Section First.
Variables (O : oracles) (range : nat) (dom : bbox) (M : R).
Hypothesis HB : large_box range dom.
Lemma inv_first : inv range dom 16 dom.
Proof.
  destruct HB as (L1 & L2 & L3). assert (Wd := large_wide _ _ HB). constructor; [exact L2| |constructor| |lia].
  - split; [congruence|]. split; [congruence|]. intros d Hd. specialize (Wd d ltac:(lia)). unfold lo, hi in Wd. lra.
  - intros d Hd. specialize (L3 d Hd). unfold default_tol, eps, extent, hi, lo. exact L3.
Qed.
End First.

(** ** A facet of a box of the plane: one object *)
Section Segment.
Variables (O : oracles) (order : nat) (dom : bbox).
Hypothesis HO : sound O 2.
Hypothesis HX : exact O dom.
Hypothesis HB : large_box 2 dom.
Hypothesis Hord : (2 <= order)%nat.
Variables (c s : nat) (L M : R).
Hypothesis Hc : (c < 2)%nat.
Hypothesis HM : 1 <= M.
Hypothesis HMe : forall d, (d < 2)%nat -> extent dom d <= M.
Hypothesis HL : 0 <= L.
Hypothesis Lip : lipschitz (o_phi O) L dom.
Notation free := (set_at (repeat true 2) c false).
Notation p0 := (mk_psi (set_at (tp_const 2 0%nat) c s) (-1)).
Lemma segment_geo psi evs refs' : nth_error psi 0 = Some p0 -> length psi = n_facets 2 -> construct O 2 order 1 n_max_subdivs false [] [] free psi 1 dom = Ret (evs, refs') ->
  Forall (ev_ok (fun x => o_phi O x <= L * M * (10 * / 2 ^ 52)) (fun _ => False)) evs.
Proof.
  intros Hp0 Lpsi E. rewrite construct_1 in E. assert (Ef : filter (fun d => nth d free false) (seq 0 2) = [1 - c]%nat) by (destruct c as [|[|?]]; [reflexivity..|lia]). rewrite Ef in E. cbn [rev app] in E. cbv zeta in E.
  set (l := mk_obj 1 false free psi 1 dom (1 - c)) in *. apply bind_inv in E as (refs & E1 & E). apply bind_inv in E as (evs0 & E2 & E). injection E as <- _. cbn [starts app]. constructor; [exact I|].
  assert (Tp := default_tol_pos). assert (BB := HB). destruct HB as (B1 & B2 & B3). assert (W : wf_obj 2 l).
  { constructor; [unfold l; cbn [l_free]; rewrite set_at_length; reflexivity|exact B1|exact B2|cbn [l l_dir]; lia|cbn [l l_count l_psi]; rewrite Lpsi; cbn; lia|intros H; exfalso; apply H; reflexivity|discriminate|]. assert (X := large_ext 2 dom 1 BB ltac:(lia) (1 - c)%nat ltac:(lia)). unfold need in X. rewrite pow_O, Rmult_1_l in X. exact X. }
  assert (F : nth (l_dir l) (l_free l) true = true) by (unfold l; cbn [l_dir l_free]; destruct c as [|[|?]]; [reflexivity..|lia]).
  assert (Hw : within (l_box l) dom) by (apply (i_in 2 dom 16); apply inv_first; exact BB).
  assert (Hok : okpt 2 l (repeat 0 2)).
  { split; [reflexivity|]. intros d Hd Hn Hf. exfalso. apply Hn. unfold l in *. cbn [l_dir l_free] in *. destruct c as [|[|?]]; [..|lia]; destruct d as [|[|d]]; try lia; cbn in *; congruence. }
  assert (Ht : compute_tolerance l <= M * default_tol). { unfold compute_tolerance, tol_update. cbn [l_box l_dir l]. apply Rmax_lub; [nra|]. assert (X := HMe (1 - c)%nat ltac:(lia)). nra. }
  assert (HB' : L * compute_tolerance l <= L * M * (10 * / 2 ^ 52)). { change (10 * / 2 ^ 52) with default_tol. rewrite Rmult_assoc. apply Rmult_le_compat_l; assumption. }
  cbn [compute_ref_intervals] in E1. change (l_dim l) with 1%nat in E1. cbn [Nat.eqb clear_refs map] in E1. apply bind_inv in E1 as (iv & EI & E1). apply bind_inv in E1 as (rs & _ & E1). injection E1 as <-. cbn [process] in E2. unfold compute_intervals in E2. cbn [emplace find_tid] in E2.
  match type of E2 with context [tid_eqb ?a ?b] => change (tid_eqb a b) with true in E2 end. change (l_dim l) with 1%nat in E2. cbn [Nat.eqb bind l_S l] in E2.
  apply Forall_forall. intros e He. destruct (foreach_in _ _ _ _ E2 He) as (i & e1 & _ & H1 & He1). clear E2 He evs0. apply bind_inv in H1 as (a & Ha & H1). apply at_inv in Ha. destruct a; [|injection H1 as <-; destruct He1].
  apply bind_inv in H1 as (x0 & N0 & H1). apply bind_inv in H1 as (x1 & N1 & H1). apply at_inv in N0, N1. destruct (foreach_in _ _ _ _ H1 He1) as (jn & e2 & Hj & H2 & He2). clear H1 He1 e1. apply in_seq in Hj.
  cbn [Nat.ltb Nat.leb l_free l l_dir] in H2. destruct (rev (fixed_dirs free)) as [|fd fl]; [discriminate|]. unfold psi_at in H2. cbn [l_psi l] in H2. rewrite Hp0 in H2. cbn [bind] in H2. injection H2 as <-. destruct He2 as [<-|[]]. cbn [ev_ok].
  set (X := x0 + (x1 - x0) * node01 (o_cheb O) order jn) in *.
  destruct (all_geo O 2 HO l W F (repeat 0 2) iv eq_refl EI) as (g & mid & ss & _ & Er & HS & _ & _ & _ & _ & Hact). change (l_S l) with false in Hact. cbv iota in Hact.
  destruct (active_true O 2 l W F _ _ (repeat 0 2) _ i (same_refl 2 l (repeat 0 2) eq_refl) Hact Ha) as (y0 & y1 & M0 & M1 & _ & Hs).
  assert (N0' := N0). assert (N1' := N1). rewrite Er in N0', N1'. cbn [ent ri_roots] in N0', N1'. rewrite N0' in M0. rewrite N1' in M1. injection M0 as <-. injection M1 as <-.
  destruct (sorted_gap _ _ _ _ HS N0' N1') as [H01 _]. assert (Hnode := node_in O 2 order HO Hord jn ltac:(lia)). assert (HXi : x0 <= X <= x1) by (unfold X; split; nra).
  destruct (Hs 0%nat ltac:(cbn; lia)) as (p & Ep & So). cbn [l_psi l] in Ep. rewrite Hp0 in Ep. injection Ep as <-. cbn [ps_sign] in So. apply sign_nonpos in So.
  destruct (base_bound O 2 dom HO HX B1 l W F Hw L (repeat 0 2) iv i x0 x1 0 p0 HL Lip Hok EI N0 N1 ltac:(cbn; lia) Hp0 X HXi) as [Q _].
  change (o_phi O (set_psi_bounds l p0 (set_at (repeat 0 2) (l_dir l) X)) <= L * M * (10 * / 2 ^ 52)).
  rewrite (spb_line 2 l W F p0 (set_at (repeat 0 2) (l_dir l) X) (repeat 0 2) X).
  - specialize (Q So). lra.
  - apply same_set. apply same_refl. reflexivity.
  - rewrite set_at_nth, Nat.eqb_refl, repeat_length. destruct (Nat.ltb_spec (l_dir l) 2) as [_|Bd]; [reflexivity|unfold l in Bd; cbn [l_dir] in Bd; lia].
Qed.
End Segment.
