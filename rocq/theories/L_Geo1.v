(** Position of the points: from the events to the mesh; the signs and the intervals of one object. *)
From Coq Require Import Reals List Lia Lra Permutation Sorted Arith ZArith.
From Verif Require Import M_General S_General S_Geo S_Mesh S_Roots L_Real L_BBox L_Point L_TensorNat L_Mesh L_Roots P_Roots L_General L_General2 L_General3 L_General4.
Import ListNotations.
Local Close Scope Z_scope. Local Close Scope nat_scope. Local Open Scope R_scope.

(** ** Events *)
Definition ev_ok (P : list R -> Prop) (F : bbox -> Prop) (e : event) : Prop := match e with Insert _ _ x => P x | Clear => True | Full b => F b end.
Lemma bind_inv {A B} (a : outcome A) (f : A -> outcome B) y : bind a f = Ret y -> exists x, a = Ret x /\ f x = Ret y.
Proof. destruct a; cbn; try discriminate. eauto. Qed.
Lemma assert_inv {A} b (x : outcome A) y : assert_ b x = Ret y -> b = true /\ x = Ret y.
Proof. unfold assert_. destruct b; [auto|discriminate]. Qed.
Lemma full_loop cheb dom : forall l m, fold_left (fun m tid => mk_mesh (m_order m) (m_points m ++ [cell_point cheb (m_order m) dom tid]) (m_conn m ++ [length (m_points m)]) (m_wires m)) l m =
  mk_mesh (m_order m) (m_points m ++ map (cell_point cheb (m_order m) dom) l) (m_conn m ++ seq (length (m_points m)) (length l)) (m_wires m).
Proof.
  induction l as [|t l IH]; intros m; cbn [fold_left map length seq]; [rewrite !app_nil_r; destruct m; reflexivity|]. rewrite IH. cbn [m_order m_points m_conn m_wires]. rewrite app_length. cbn [length]. rewrite <- !app_assoc. cbn [app].
  replace (length (m_points m) + 1)%nat with (S (length (m_points m))) by lia. reflexivity.
Qed.
Lemma run_points cheb mdim order (P : list R -> Prop) (F : bbox -> Prop) : (forall b t, F b -> In t (tp_all (tp_const mdim order)) -> P (cell_point cheb order b t)) ->
  forall evs m mp m' mp', m_order m = order -> Forall (ev_ok P F) evs -> foldM (run_event cheb mdim) evs (m, mp) = Ret (m', mp') ->
  m_order m' = order /\ exists np, m_points m' = m_points m ++ np /\ Forall P np.
Proof.
  intros HF. induction evs as [|e evs IH]; intros m mp m' mp' Ho He E; cbn [foldM] in E.
  - injection E as <- <-. split; [exact Ho|]. exists []. rewrite app_nil_r. auto.
  - inversion He as [|? ? H1 H2]; subst. apply bind_inv in E as ([m1 mp1] & E1 & E2).
    assert (K : m_order m1 = m_order m /\ exists np, m_points m1 = m_points m ++ np /\ Forall P np).
    { destruct e as [t p x| |b]; cbn [run_event fst snd ev_ok] in E1, H1.
      - destruct (find_tid mp t) as [c|].
        + apply bind_inv in E1 as (m2 & E1 & E3). injection E3 as <- _. unfold insert_cell_point in E1. apply assert_inv in E1 as [_ E1]. injection E1 as <-. cbn [m_order m_points]. split; [reflexivity|]. exists [x]. auto.
        + apply bind_inv in E1 as (m2 & E1 & E3). injection E3 as <- _. unfold insert_cell_point, allocate_cells in E1. cbn [fst snd] in E1. apply assert_inv in E1 as [_ E1]. injection E1 as <-. cbn [m_order m_points]. split; [reflexivity|]. exists [x]. auto.
      - injection E1 as <- _. split; [reflexivity|]. exists []. rewrite app_nil_r. auto.
      - apply bind_inv in E1 as (m2 & E1 & E3). injection E3 as <- _. unfold add_full_cell in E1. rewrite full_loop in E1. apply bind_inv in E1 as (nc & _ & E1). injection E1 as <-. cbn [m_order m_points]. split; [reflexivity|].
        eexists. split; [reflexivity|]. apply Forall_forall. intros x Hx. apply in_map_iff in Hx as (t & <- & Ht). apply HF; assumption. }
    destruct K as [Eo (np & Ep & Fp)]. destruct (IH m1 mp1 m' mp' Eo H2 E2) as [Eo' (np' & Ep' & Fp')]. split; [exact Eo'|]. exists (np ++ np'). rewrite Ep', Ep, app_assoc. split; [reflexivity|]. apply Forall_app. auto.
Qed.

(** ** Loops *)
Lemma foreach_in {B E} (f : B -> outcome (list E)) : forall l es e, foreach f l = Ret es -> In e es -> exists x ex, In x l /\ f x = Ret ex /\ In e ex.
Proof.
  induction l as [|x l IH]; intros es e H He; cbn [foreach] in H; [injection H as <-; destruct He|]. apply bind_inv in H as (ex & Ex & H). apply bind_inv in H as (es' & Es & H). injection H as <-.
  apply in_app_or in He as [He|He]; [exists x, ex; split; [left; reflexivity|auto]|]. destruct (IH _ _ Es He) as (y & ey & Hy & Ey & Hin). exists y, ey. split; [right; exact Hy|auto].
Qed.
Lemma at_inv {A} (l : list A) i x : M_Mesh.at_ l i = Ret x -> nth_error l i = Some x.
Proof. unfold M_Mesh.at_. destruct (nth_error l i); [intros [= <-]; reflexivity|discriminate]. Qed.
Lemma foldM_pres {A B} (f : A -> B -> outcome A) (I : A -> Prop) : forall l a a', I a -> (forall a x a', In x l -> I a -> f a x = Ret a' -> I a') -> foldM f l a = Ret a' -> I a'.
Proof.
  induction l as [|x l IH]; intros a a' Ha Hf E; cbn [foldM] in E; [injection E as <-; exact Ha|]. apply bind_inv in E as (a1 & E1 & E2). eapply IH; [|intros; eapply Hf; [right|..]; eassumption|exact E2]. eapply Hf; [left; reflexivity|exact Ha|exact E1].
Qed.

(** ** Lines *)
Section Object.
Variables (O : oracles) (range : nat).
Hypothesis HO : sound O range.
Variable l : obj.
Hypothesis W : wf_obj range l.
Hypothesis Hfree : nth (l_dir l) (l_free l) true = true.
Notation k := (l_dir l).
Definition line (p : psi_code) (pt : list R) (t : R) : list R := set_at (set_psi_bounds l p pt) k t.

Lemma spb_length p pt : length pt = range -> length (set_psi_bounds l p pt) = range.
Proof. intros H. unfold set_psi_bounds. rewrite (restrict_length 2 (le_n 2)); [exact H|]. rewrite (wf_free _ _ W). congruence. Qed.
Lemma spb_nth p pt d : length pt = range -> (d < range)%nat -> nth d (set_psi_bounds l p pt) 0 = if nth d (l_free l) true then nth d pt 0 else side_of (l_box l) (nth d (ps_side p) 0%nat) d.
Proof. intros H Hd. unfold set_psi_bounds. apply (restrict_nth 2 (le_n 2)); [rewrite (wf_free _ _ W); congruence|lia]. Qed.
Lemma line_length p pt t : length pt = range -> length (line p pt t) = range.
Proof. intros H. unfold line. rewrite set_at_length. apply spb_length, H. Qed.
Lemma line_nth p pt t d : length pt = range -> (d < range)%nat ->
  nth d (line p pt t) 0 = if (k =? d)%nat then t else if nth d (l_free l) true then nth d pt 0 else side_of (l_box l) (nth d (ps_side p) 0%nat) d.
Proof.
  intros H Hd. unfold line. rewrite set_at_nth. destruct (Nat.eqb_spec k d) as [E|E]; [|apply spb_nth; assumption].
  rewrite spb_length by exact H. destruct (Nat.ltb_spec k range); [reflexivity|lia].
Qed.
(** Two points with the same free coordinates, but for the one of the line. *)
Definition same (a b : list R) : Prop := length a = range /\ length b = range /\ forall d, (d < range)%nat -> d <> k -> nth d (l_free l) true = true -> nth d a 0 = nth d b 0.
Lemma same_refl a : length a = range -> same a a.
Proof. intros H. repeat split; auto. Qed.
Lemma same_spb p a b : same a b -> same (set_psi_bounds l p a) b.
Proof. intros (A & B & C). split; [apply spb_length, A|]. split; [exact B|]. intros d Hd Hk Hf. rewrite spb_nth by assumption. rewrite Hf. apply C; assumption. Qed.
Lemma same_set a b x : same a b -> same (set_at a k x) b.
Proof. intros (A & B & C). split; [rewrite set_at_length; exact A|]. split; [exact B|]. intros d Hd Hk Hf. rewrite set_at_nth. destruct (Nat.eqb_spec k d); [congruence|]. apply C; assumption. Qed.
Lemma same_line p a b t : same a b -> line p a t = line p b t.
Proof.
  intros (A & B & C). apply (nth_ext _ _ 0 0); [rewrite !line_length by assumption; reflexivity|]. intros d Hd. rewrite line_length in Hd by assumption. rewrite !line_nth by assumption.
  destruct (Nat.eqb_spec k d); [reflexivity|]. destruct (nth d (l_free l) true) eqn:E; [apply C; auto|reflexivity].
Qed.
Lemma spb_line p a b t : same a b -> nth k a 0 = t -> set_psi_bounds l p a = line p b t.
Proof.
  intros S E. rewrite <- (same_line p a b t S). destruct S as (A & B & C). apply (nth_ext _ _ 0 0); [rewrite spb_length, line_length by assumption; reflexivity|]. intros d Hd. rewrite spb_length in Hd by assumption. rewrite spb_nth, line_nth by assumption.
  destruct (Nat.eqb_spec k d) as [<-|]; [|reflexivity]. rewrite Hfree. exact E.
Qed.

(** ** Signs *)
Definition sign_ok (sign : Z) (v : R) : Prop := (0 < v -> (0 <= sign)%Z) /\ (v <= 0 -> (sign <= 0)%Z).
Lemma signs_true : forall n i pt pt' b t, same pt b -> nth k pt 0 = t -> signs_okay O l n i pt = Ret (true, pt') ->
  forall j, (i <= j < i + n)%nat -> exists p, nth_error (l_psi l) j = Some p /\ sign_ok (ps_sign p) (o_phi O (line p b t)).
Proof.
  induction n as [|n IH]; intros i pt pt' b t S Et E j Hj; [lia|]. cbn [signs_okay] in E. apply bind_inv in E as (p & Ep & E). unfold psi_at in Ep. destruct (nth_error (l_psi l) i) as [p'|] eqn:En; [|discriminate]. injection Ep as ->.
  rewrite (spb_line p pt b t S Et) in E. destruct (if Rltb 0 (o_phi O (line p b t)) then (0 <=? ps_sign p)%Z else (ps_sign p <=? 0)%Z) eqn:Eb; [|discriminate].
  destruct (Nat.eq_dec j i) as [->|Ne].
  - exists p. split; [exact En|]. unfold Rltb in Eb. destruct (Rlt_dec 0 (o_phi O (line p b t))); split; intros; try lra; apply Z.leb_le; exact Eb.
  - eapply (IH (Datatypes.S i)); [| |exact E|lia].
    + rewrite <- (spb_line p pt b t S Et). apply same_spb, S.
    + rewrite line_nth by (apply S || apply (wf_dir _ _ W)). rewrite Nat.eqb_refl. reflexivity.
Qed.
Lemma signs_same : forall n i pt pt' b r, same pt b -> signs_okay O l n i pt = Ret (r, pt') -> same pt' b.
Proof.
  induction n as [|n IH]; intros i pt pt' b r S E; cbn [signs_okay] in E; [injection E as _ <-; exact S|]. apply bind_inv in E as (p & Ep & E).
  destruct (if Rltb 0 _ then _ else _); [eapply IH; [|exact E]; apply same_spb, S|injection E as _ <-; apply same_spb, S].
Qed.
Lemma active_true : forall roots pt b act i, same pt b -> active_loop O l roots pt = Ret act -> nth_error act i = Some true ->
  exists x0 x1, nth_error roots i = Some x0 /\ nth_error roots (S i) = Some x1 /\ compute_tolerance l < Rabs (x1 - x0) /\
    forall j, (j < l_count l)%nat -> exists p, nth_error (l_psi l) j = Some p /\ sign_ok (ps_sign p) (o_phi O (line p b (/ 2 * (x0 + x1)))).
Proof.
  induction roots as [|x0 roots IH]; intros pt b act i S E Hi; [injection E as <-; destruct i; discriminate|]. destruct roots as [|x1 roots]; [injection E as <-; destruct i; discriminate|].
  cbn [active_loop] in E. apply bind_inv in E as ([r pt'] & Ec & E). cbn [fst snd] in E. apply bind_inv in E as (act' & Ea & E). injection E as <-.
  assert (S' : same pt' b).
  { unfold check_active_interval in Ec. destruct (tol_equal _ _ _); [injection Ec as _ <-; exact S|]. eapply signs_same; [|exact Ec]. apply same_set, S. }
  destruct i as [|i].
  - cbn [nth_error] in Hi. injection Hi as ->. exists x0, x1. split; [reflexivity|]. split; [reflexivity|]. unfold check_active_interval in Ec. destruct (tol_equal (compute_tolerance l) x1 x0) eqn:Et; [discriminate|]. split; [apply tol_equal_niff; exact Et|].
    intros j Hj. eapply signs_true; [| |exact Ec|lia]; [apply same_set, S|]. rewrite set_at_nth, Nat.eqb_refl. destruct S as (A & _). rewrite A. pose proof (wf_dir _ _ W). destruct (Nat.ltb_spec k range); [reflexivity|lia].
  - cbn [nth_error] in Hi. destruct (IH pt' b act' i S' Ea Hi) as (y0 & y1 & H1 & H2 & H3 & H4). exists y0, y1. auto.
Qed.

Lemma signs_conv : forall n i pt b t, same pt b -> nth k pt 0 = t ->
  (forall j, (i <= j < i + n)%nat -> exists p, nth_error (l_psi l) j = Some p /\ sign_ok (ps_sign p) (o_phi O (line p b t))) -> exists pt', signs_okay O l n i pt = Ret (true, pt').
Proof.
  induction n as [|n IH]; intros i pt b t S Et H; cbn [signs_okay]; [eexists; reflexivity|]. destruct (H i ltac:(lia)) as (p & Ep & So). unfold psi_at. rewrite Ep. cbn [bind]. rewrite (spb_line p pt b t S Et).
  replace (if Rltb 0 (o_phi O (line p b t)) then (0 <=? ps_sign p)%Z else (ps_sign p <=? 0)%Z) with true.
  - apply (IH (Datatypes.S i) _ b t); [| |intros j Hj; apply H; lia].
    + rewrite <- (spb_line p pt b t S Et). apply same_spb, S.
    + rewrite line_nth by (apply S || apply (wf_dir _ _ W)). rewrite Nat.eqb_refl. reflexivity.
  - symmetry. unfold Rltb. destruct So as [S1 S2]. destruct (Rlt_dec 0 (o_phi O (line p b t))); apply Z.leb_le; [apply S1|apply S2]; lra.
Qed.
Lemma active_conv : forall roots pt b act i x0 x1, same pt b -> active_loop O l roots pt = Ret act -> nth_error roots i = Some x0 -> nth_error roots (S i) = Some x1 -> compute_tolerance l < Rabs (x1 - x0) ->
  (forall j, (j < l_count l)%nat -> exists p, nth_error (l_psi l) j = Some p /\ sign_ok (ps_sign p) (o_phi O (line p b (/ 2 * (x0 + x1))))) -> nth_error act i = Some true.
Proof.
  induction roots as [|y0 roots IH]; intros pt b act i x0 x1 S E H0 H1 Ht Hs; [destruct i; discriminate|]. destruct roots as [|y1 roots]; [destruct i; [discriminate|destruct i; discriminate]|].
  cbn [active_loop] in E. apply bind_inv in E as ([r pt'] & Ec & E). cbn [fst snd] in E. apply bind_inv in E as (act' & Ea & E). injection E as <-.
  assert (S' : same pt' b).
  { unfold check_active_interval in Ec. destruct (tol_equal _ _ _); [injection Ec as _ <-; exact S|]. eapply signs_same; [|exact Ec]. apply same_set, S. }
  destruct i as [|i].
  - cbn [nth_error] in *. injection H0 as ->. injection H1 as ->. unfold check_active_interval in Ec. replace (tol_equal (compute_tolerance l) x1 x0) with false in Ec by (symmetry; apply tol_equal_niff; exact Ht).
    destruct (signs_conv (l_count l) 0 (set_at pt k (/ 2 * (x0 + x1))) b (/ 2 * (x0 + x1))) as (pt2 & E2).
    + apply same_set, S.
    + rewrite set_at_nth, Nat.eqb_refl. destruct S as (A & _). rewrite A. pose proof (wf_dir _ _ W). destruct (Nat.ltb_spec k range); [reflexivity|lia].
    + intros j Hj. apply Hs. lia.
    + rewrite E2 in Ec. injection Ec as <- _. reflexivity.
  - cbn [nth_error] in H0, H1 |- *. eapply IH; eassumption.
Qed.

(** ** Roots *)
Lemma newl_values tol x0 x1 (V : R -> Prop) : V x0 -> V x1 -> forall old prev, (forall q, prev = Some q -> V q) -> Forall (fun e => V (fst e)) old -> Forall (fun e => V (fst e)) (newl tol x0 x1 prev old).
Proof.
  intros V0 V1. induction old as [|[r i] old IH]; intros prev Hp Ho; cbn [newl]; [constructor|]. inversion Ho; subst. cbn [fst] in *. constructor; [|apply IH; [intros q [= <-]; assumption|assumption]].
  cbn [fst]. unfold nv. destruct (tol_equal tol r x0); [exact V0|]. destruct (tol_equal tol r x1); [exact V1|]. destruct prev as [q|]; [|assumption]. destruct (tol_equal tol r q); [apply Hp; reflexivity|assumption].
Qed.
(** The adjusted entries of ends and roots. *)
Lemma adjust_geo2 ends mid entries : mids l mid -> Permutation ends [(X0 l, (-1)%Z); (X1 l, (-1)%Z)] -> Permutation entries (ends ++ mid) ->
  exists mid' s, adjust_roots (o_sort O) (compute_tolerance l) (X0 l) (X1 l) (ent entries) = Ret (ent (full_list l mid')) /\ StronglySorted Rle (map fst (full_list l mid')) /\ Permutation s mid /\ StronglySorted Rle (map fst s) /\
    Forall2 (moved_within (compute_tolerance l)) s mid' /\ Forall (fun e => fst e = X0 l \/ fst e = X1 l \/ In (fst e) (map fst mid)) mid'.
Proof.
  intros M PE P. destruct (adjust_full O range HO l ends mid W M PE entries P) as (mid' & E & M' & _). exists mid'. pose proof (tol_ok range l W) as T. pose proof (x_lt range l W) as Lx.
  assert (HE : Forall (root_in (X0 l) (X1 l)) entries).
  { eapply Permutation_Forall; [symmetry; exact P|]. apply Forall_app. split; [|apply mids_in, M]. eapply Permutation_Forall; [symmetry; exact PE|].
    constructor; [|constructor; [|constructor]]; (split; [cbn [fst]; lra|split; [cbn [snd]; lia|intros _; cbn [fst]; auto]]). }
  destruct (C69_adjust_roots (o_sort O) (compute_tolerance l) (X0 l) (X1 l) entries (s_sort O range HO) T HE) as (ri & ri' & first & md & last & s & E1 & E2 & Ids & Er & Ef & Hs & Hb & F & G & PS & SS & MV).
  change ri_empty with (ent []) in E1. rewrite (add_ent [] entries) in E1 by (eapply Forall_impl; [|exact HE]; intros e He; apply He). cbn [app] in E1. injection E1 as <-. rewrite E in E2. injection E2 as <-.
  assert (I0 : In (X0 l, (-1)%Z) entries) by (apply (Permutation_in _ (Permutation_sym P)); apply in_or_app; left; apply (Permutation_in _ (Permutation_sym PE)); left; reflexivity).
  assert (I1 : In (X1 l, (-1)%Z) entries) by (apply (Permutation_in _ (Permutation_sym P)); apply in_or_app; left; apply (Permutation_in _ (Permutation_sym PE)); right; left; reflexivity).
  cbn [ent ri_roots_ids ri_roots] in Ids, Hs. rewrite (proj1 F I0), (proj1 G I1) in Ids. cbn [app] in Ids. unfold full_list in Ids at 1. injection Ids as Ids. apply app_inj_tail in Ids as [<- _].
  exists s. split; [exact E|]. split; [exact Hs|]. split; [|split; [exact SS|split; [exact MV|]]].
  - rewrite PS. assert (K : forall a b, Permutation a b -> Permutation (levelset_entries a) (levelset_entries b)).
    { clear. unfold levelset_entries. induction 1; cbn [filter]; [constructor| | |eapply perm_trans; eassumption].
      - destruct (negb _); [apply perm_skip; assumption|assumption].
      - destruct (negb (snd y =? -1)%Z), (negb (snd x =? -1)%Z); try reflexivity. apply perm_swap. }
    rewrite (K _ _ P). unfold levelset_entries. rewrite filter_app. fold (levelset_entries mid). rewrite (level_mids l mid M).
    assert (Hn : filter (fun e : R * Z => negb (snd e =? -1)%Z) ends = []).
    { assert (Hq := K _ _ PE). unfold levelset_entries in Hq. cbn [filter snd Z.eqb negb] in Hq. apply Permutation_sym, Permutation_nil in Hq. exact Hq. }
    rewrite Hn. reflexivity.
  - destruct (adjust_eq (o_sort O) (compute_tolerance l) (X0 l) (X1 l) entries (s_sort O range HO) T HE) as (s' & fi & la & Es & Hf & Hl & E'). cbv zeta in E'. unfold ent in E. rewrite E in E'. rewrite (proj1 Hf I0), (proj1 Hl I1) in E'. injection E' as _ _ Eo. unfold full_list in Eo. apply app_inj_tail in Eo as [-> _].
    assert (NV : Forall (fun e => fst e = X0 l \/ fst e = X1 l \/ In (fst e) (map fst mid)) (newl (compute_tolerance l) (X0 l) (X1 l) None s')).
    { apply (newl_values _ _ _ (fun v => v = X0 l \/ v = X1 l \/ In v (map fst mid))); auto; [discriminate|]. rewrite Es. eapply Permutation_Forall; [symmetry; apply (s_sort O range HO)|]. eapply Permutation_Forall; [symmetry; exact P|]. apply Forall_app. split.
      - eapply Permutation_Forall; [symmetry; exact PE|]. constructor; [cbn [fst]; auto|constructor; [cbn [fst]; auto|constructor]].
      - apply Forall_forall. intros e He. right. right. apply in_map. exact He. }
    rewrite Forall_forall in *. intros e He. apply filter_In in He as [He _]. apply NV. exact He.
Qed.
Lemma adjust_geo ends mid entries : mids l mid -> Permutation ends [(X0 l, (-1)%Z); (X1 l, (-1)%Z)] -> Permutation entries (ends ++ mid) ->
  exists mid' s, adjust_roots (o_sort O) (compute_tolerance l) (X0 l) (X1 l) (ent entries) = Ret (ent (full_list l mid')) /\ StronglySorted Rle (map fst (full_list l mid')) /\ Permutation s mid /\
    Forall2 (moved_within (compute_tolerance l)) s mid' /\ Forall (fun e => fst e = X0 l \/ fst e = X1 l \/ In (fst e) (map fst mid)) mid'.
Proof.
  intros M PE P. destruct (adjust_geo2 ends mid entries M PE P) as (mid' & s & A & B & C & _ & D). exists mid', s. auto.
Qed.
Lemma forall2_in {A B} (Q : A -> B -> Prop) : forall a b x, Forall2 Q a b -> In x a -> exists y, In y b /\ Q x y.
Proof. intros a b x H. induction H as [|u v a b Huv _ IH]; intros [<-|Hx] || intros []; [exists v; split; [left; reflexivity|exact Huv]|destruct (IH Hx) as (y & Hy & Q1); exists y; split; [right; exact Hy|exact Q1]]. Qed.

(** All the intervals of a point. *)
Lemma all_geo pt iv : length pt = range -> compute_all_intervals O l pt = Ret iv ->
  exists f mid s, (forall i, (i < l_count l)%nat -> compute_roots O l pt i = Ret (f i)) /\ iv_ri iv = ent (full_list l mid) /\ StronglySorted Rle (map fst (full_list l mid)) /\
    Permutation s (tagged f (seq 0 (l_count l))) /\ Forall2 (moved_within (compute_tolerance l)) s mid /\
    Forall (fun e => fst e = X0 l \/ fst e = X1 l \/ In (fst e) (map fst (tagged f (seq 0 (l_count l))))) mid /\ iv_point iv = pt /\
    (if l_S l then iv_active iv = [] else active_loop O l (map fst (full_list l mid)) pt = Ret (iv_active iv)).
Proof.
  intros Hp E. unfold compute_all_intervals in E. change ri_empty with (ent []) in E. fold (X0 l) (X1 l) in E. rewrite add_ent in E by (repeat constructor; cbn [snd]; lia). cbn [bind app] in E.
  destruct (choose_fun (fun i rs => compute_roots O l pt i = Ret rs /\ Forall (inside l) rs) [] (l_count l)) as [f Hf]; [intros; apply (compute_roots_ok O range HO); assumption|].
  rewrite (foldM_add (compute_roots O l pt) f) in E by (intros i Hi; apply in_seq in Hi; apply Hf; lia). cbn [bind] in E.
  assert (M : mids l (tagged f (seq 0 (l_count l)))) by (apply tagged_mids; [lia|intros; apply Hf; assumption]).
  destruct (adjust_geo [(X0 l, (-1)%Z); (X1 l, (-1)%Z)] (tagged f (seq 0 (l_count l))) _ M (Permutation_refl _) (Permutation_refl _)) as (mid & s & Ea & Hs & PS & MV & Va).
  cbn [app] in Ea, E. rewrite Ea in E. cbn [bind] in E. exists f, mid, s. split; [intros i Hi; apply Hf; exact Hi|]. destruct (l_S l).
  - injection E as <-. cbn [iv_ri iv_point iv_active]. auto 10.
  - apply assert_inv in E as [_ E]. apply bind_inv in E as (act & Ec & E). injection E as <-. cbn [iv_ri iv_point iv_active]. auto 10.
Qed.
End Object.
