(** The faces reached by the mesh of a level set in the plane. *)
From Coq Require Import Reals List Lia Lra Permutation Sorted Arith ZArith.
From Verif Require Import M_Reparam M_General S_General S_Geo S_Faces S_Mesh S_Roots L_Real L_BBox L_Point L_TensorNat L_Mesh L_Mesh5 L_Roots P_Roots L_General L_General2 L_General3 L_General4 L_General5 L_General6 L_General7 L_Reparam L_Reparam3 L_Geo1 L_Geo2 L_Geo3 L_Geo4 L_Geo5.
From Verif Require L_Geo7.
Import ListNotations.
Local Close Scope Z_scope. Local Close Scope nat_scope. Local Open Scope R_scope.

Lemma node_ends cheb order : ends_nodes cheb -> (2 <= order)%nat -> node01 cheb order 0 = 0 /\ node01 cheb order (order - 1) = 1.
Proof.
  intros H Ho. unfold node01. destruct (use_chebyshev order); [apply H, Ho|]. assert (0 < INR (order - 1)) by (apply lt_0_INR; lia). split; [cbn [INR]; unfold Rdiv; ring|field; lra].
Qed.

Lemma forall2_ni {A B} (Q : A -> B -> Prop) : forall a b y, Forall2 Q a b -> In y b -> exists x, In x a /\ Q x y.
Proof. intros a b y H. induction H as [|u v a b Huv _ IH]; intros [<-|Hx] || intros []; [exists u; split; [left; reflexivity|exact Huv]|destruct (IH Hx) as (x & Hy & Q1); exists x; split; [right; exact Hy|exact Q1]]. Qed.

Section Face.
Variables (O : oracles) (range order : nat) (dom : bbox).
Hypothesis HO : sound O range.
Hypothesis HX : exact O dom.
Hypothesis Hdom : length (bmin dom) = range.
Hypothesis Hord : (2 <= order)%nat.
Hypothesis Hends : ends_nodes (o_cheb O).
Variables (l1 l2 : obj) (p0 pa pb : psi_code) (inc : bool) (L : R).
Hypothesis W1 : wf_obj range l1.
Hypothesis W2 : wf_obj range l2.
Hypothesis D1 : l_dim l1 = 1%nat.
Hypothesis D2 : l_dim l2 <> 1%nat.
Hypothesis S1 : l_S l1 = false.
Hypothesis S2 : l_S l2 = true.
Hypothesis C1 : l_count l1 = 2%nat.
Hypothesis C2 : l_count l2 = 1%nat.
Hypothesis Box : l_box l1 = l_box l2.
Hypothesis Free : l_free l1 = set_at (l_free l2) (l_dir l2) false.
Hypothesis F1 : nth (l_dir l1) (l_free l1) true = true.
Hypothesis F2 : nth (l_dir l2) (l_free l2) true = true.
Hypothesis Only : forall d, (d < range)%nat -> nth d (l_free l1) true = true -> d = l_dir l1.
Hypothesis Ea : nth_error (l_psi l1) 0 = Some pa.
Hypothesis Eb : nth_error (l_psi l1) 1 = Some pb.
Hypothesis E0 : nth_error (l_psi l2) 0 = Some p0.
Hypothesis Sa : ps_side pa = set_at (ps_side p0) (l_dir l2) 0%nat.
Hypothesis Sb : ps_side pb = set_at (ps_side p0) (l_dir l2) 1%nat.
Hypothesis Ls : length (ps_side p0) = range.
Hypothesis Sg0 : ps_sign p0 = (-1)%Z.
Hypothesis Sg : (ps_sign pa, ps_sign pb) = (if inc then (-1, 1) else (1, -1))%Z.
Hypothesis Hw : within (l_box l2) dom.
Notation j := (l_dir l1).
Notation k := (l_dir l2).
Notation f := (fun pt t => o_phi O (line l2 p0 pt t)).
Notation pt0 := (repeat 0 range).
Notation pt := (fun X => set_at pt0 j X).
Notation T0 := (tp_const range 0%nat).
Notation tol1 := (compute_tolerance l1).
Notation tol2 := (compute_tolerance l2).
Hypothesis Hmono : forall pt s t, okpt range l2 pt -> inside l2 s -> inside l2 t -> s < t -> if inc then f pt s < f pt t else f pt t < f pt s.
Hypothesis Hbig : 2 * tol2 < X1 l2 - X0 l2.
Hypothesis HL : 0 <= L.
Hypothesis Lip : lipschitz (o_phi O) L dom.
Variables (eta e y1 y2 : R) (s : bool).
Hypothesis Heta : L * tol1 <= eta.
Hypothesis He : e = if s then X1 l1 else X0 l1.
Hypothesis Y1 : inside l2 y1.
Hypothesis Y2 : inside l2 y2.
Hypothesis H1 : f (pt e) y1 < - eta.
Hypothesis H2 : eta < f (pt e) y2.

Lemma He_in : inside l1 e.
Proof. pose proof (x_lt range l1 W1). unfold inside. rewrite He. destruct s; lra. Qed.
Lemma line_a' X : line l1 pa pt0 X = line l2 p0 (pt X) (X0 l2).
Proof. eapply line_a; eassumption. Qed.
Lemma line_b' X : line l1 pb pt0 X = line l2 p0 (pt X) (X1 l2).
Proof. eapply line_b; eassumption. Qed.
Lemma ok_e : okpt range l2 (pt e).
Proof. eapply ok2; try eassumption. apply He_in. Qed.
Lemma sides : if inc then o_phi O (line l1 pa pt0 e) < - eta /\ eta < o_phi O (line l1 pb pt0 e) else eta < o_phi O (line l1 pa pt0 e) /\ o_phi O (line l1 pb pt0 e) < - eta.
Proof.
  rewrite line_a', line_b'. destruct (ends_inside range l2 W2) as [I0 I1]. assert (ML := mono_le O range l2 p0 inc Hmono (pt e)). assert (A1 := ML _ _ ok_e I0 Y1 ltac:(apply Y1)). assert (A2 := ML _ _ ok_e Y1 I1 ltac:(apply Y1)). assert (B1 := ML _ _ ok_e I0 Y2 ltac:(apply Y2)). assert (B2 := ML _ _ ok_e Y2 I1 ltac:(apply Y2)).
  clear Sg Hmono ML. cbv beta in *. destruct inc; lra.
Qed.
Lemma far p r : p = pa \/ p = pb -> inside l1 r -> o_phi O (line l1 p pt0 r) = 0 -> tol1 < Rabs (r - e).
Proof.
  intros Hp Hr Z. assert (Ok := ok1 range l1 Only). assert (Hw1 : within (l_box l1) dom) by (rewrite Box; exact Hw). assert (D : forall t, inside l1 t -> in_box dom (line l1 p pt0 t)) by (intros t Ht; apply (line_dom range dom Hdom l1 W1 F1 Hw1); assumption).
  assert (K := Lip _ _ _ _ (D _ Hr) (D _ He_in)). fold (line l1 p pt0 e) (line l1 p pt0 r) in K. rewrite Z, Rminus_0_r in K. pose proof (tol_ok range l1 W1) as T. assert (E1 : 0 <= eta) by nra.
  assert (B : eta < Rabs (o_phi O (line l1 p pt0 e))). { assert (SD := sides). assert (Ci : inc = true \/ inc = false) by (clear; destruct inc; auto). destruct Ci as [Ei|Ei]; rewrite Ei in SD; destruct SD as [Q1 Q2]; destruct Hp as [-> | ->]; unfold Rabs; destruct (Rcase_abs _); lra. }
  destruct (Rle_or_lt (Rabs (r - e)) tol1) as [H|H]; [exfalso|exact H]. rewrite Rabs_minus_sym in H. assert (L * Rabs (e - r) <= L * tol1) by (apply Rmult_le_compat_l; assumption). lra.
Qed.
Lemma tagged_in (f : nat -> list R) x : In x (map fst (tagged f (seq 0 2))) -> In x (f 0%nat) \/ In x (f 1%nat).
Proof. unfold tagged. cbn [seq flat_map]. rewrite app_nil_r, map_app, !map_map. cbn [fst]. rewrite !map_id. intros H. apply in_app_iff in H. exact H. Qed.
(** The interval next to the face. *)
Lemma next_face iv1 : compute_all_intervals O l1 pt0 = Ret iv1 -> exists i x0 x1, nth_error (ri_roots (iv_ri iv1)) i = Some x0 /\ nth_error (ri_roots (iv_ri iv1)) (Datatypes.S i) = Some x1 /\ nth_error (iv_active iv1) i = Some true /\ x0 <= x1 /\ e = (if s then x1 else x0).
Proof.
  intros E. destruct (all_geo O range HO l1 W1 F1 pt0 iv1 ltac:(apply repeat_length) E) as (g & mid & sl & Hg & Er & HS & PS & MV & Va & _ & Ha). rewrite C1 in *. rewrite S1 in Ha. pose proof (tol_ok range l1 W1) as T. assert (Ok := ok1 range l1 Only). assert (Hw1 : within (l_box l1) dom) by (rewrite Box; exact Hw).
  assert (Root : forall x, In x (map fst (tagged g (seq 0 2))) -> inside l1 x /\ tol1 < Rabs (x - e)).
  { intros x Hx. apply tagged_in in Hx as [Hx|Hx].
    - destruct (roots_geo O range dom HO HX Hdom l1 W1 F1 Hw1 pt0 0 _ Ok ltac:(lia) (Hg 0%nat ltac:(lia))) as (p & Ep & _ & Hzr & _). rewrite Ea in Ep. injection Ep as <-. destruct (Hzr x Hx) as [Q1 Q2]. split; [exact Q1|]. apply (far pa x); [left; reflexivity|exact Q1|exact Q2].
    - assert (RG := roots_geo O range dom HO HX Hdom l1 W1 F1 Hw1 pt0 1 _ Ok ltac:(lia) (Hg 1%nat ltac:(lia))). destruct RG as (p & Ep & _ & Hzr1 & _). rewrite Eb in Ep. injection Ep as <-. destruct (Hzr1 x Hx) as [Q1 Q2]. split; [exact Q1|]. apply (far pb x); [right; reflexivity|exact Q1|exact Q2]. }
  assert (Hs : forall q, In q sl -> tol1 < Rabs (fst q - e)). { intros q Hq. apply Root. apply in_map. eapply Permutation_in; [exact PS|exact Hq]. }
  assert (Mid : forall q, In q mid -> tol1 < Rabs (fst q - e)).
  { intros q Hq. rewrite Forall_forall in Va. assert (B : Rabs (X1 l1 - X0 l1) = X1 l1 - X0 l1) by (apply Rabs_pos_eq; lra). destruct (forall2_ni _ _ _ q MV Hq) as (q0 & Hq0 & _ & Hm). specialize (Hs q0 Hq0).
    destruct (Va q Hq) as [Q|[Q|Q]]; [..|apply Root; exact Q]; rewrite Q in *; rewrite He in *; clear - B T Hs Hm; destruct s; try (rewrite Rabs_minus_sym in B; lra); try lra. }
  set (roots := map fst (full_list l1 mid)) in *.
  assert (Get : exists i x0 x1, nth_error roots i = Some x0 /\ nth_error roots (Datatypes.S i) = Some x1 /\ e = (if s then x1 else x0) /\ tol1 < Rabs (x1 - x0)).
  { assert (Cs : s = true \/ s = false) by (clear; destruct s; auto). unfold roots, full_list. cbn [map fst]. rewrite map_app. cbn [map fst]. destruct Cs as [Es|Es]; rewrite Es in *.
    - destruct mid as [|q0 mid0] using rev_ind; [exists 0%nat, (X0 l1), (X1 l1); cbn; repeat split; auto; rewrite Rabs_pos_eq; lra|]. clear IHmid0. exists (Datatypes.S (length mid0)), (fst q0), (X1 l1). rewrite map_app. cbn [map]. rewrite <- !app_assoc. cbn [app]. assert (NS : forall (a : R) ls n, nth_error (a :: ls) (Datatypes.S n) = nth_error ls n) by reflexivity. rewrite !NS.
      split; [rewrite nth_error_app2 by (rewrite map_length; lia); rewrite map_length, Nat.sub_diag; reflexivity|]. split; [rewrite nth_error_app2 by (rewrite map_length; lia); rewrite map_length; replace (Datatypes.S (length mid0) - length mid0)%nat with 1%nat by lia; reflexivity|]. split; [exact He|].
      rewrite Rabs_minus_sym, <- He. apply Mid. apply in_app_iff. right. left. reflexivity.
    - destruct mid as [|q0 mid0]; [exists 0%nat, (X0 l1), (X1 l1); cbn; repeat split; auto; rewrite Rabs_pos_eq; lra|]. exists 0%nat, (X0 l1), (fst q0). cbn. repeat split; auto. rewrite <- He. apply Mid. left. reflexivity. }
  destruct Get as (i & x0 & x1 & N0 & N1 & Ee & Wd). destruct (sorted_gap _ _ _ _ HS N0 N1) as [Le _]. exists i, x0, x1. rewrite Er. cbn [ent ri_roots]. fold roots. split; [exact N0|]. split; [exact N1|]. split; [|split; [exact Le|exact Ee]].
  refine (active_conv O range l1 W1 F1 _ pt0 pt0 _ i x0 x1 (same_refl range l1 pt0 (repeat_length _ _)) Ha N0 N1 Wd _).
  assert (Et : x0 <= e <= x1) by (rewrite Ee; destruct s; lra). assert (M0 : nth_error (ri_roots (iv_ri iv1)) i = Some x0) by (rewrite Er; exact N0). assert (M1 : nth_error (ri_roots (iv_ri iv1)) (Datatypes.S i) = Some x1) by (rewrite Er; exact N1).
  destruct (base_bound O range dom HO HX Hdom l1 W1 F1 Hw1 L pt0 iv1 i x0 x1 0 pa HL Lip Ok E M0 M1 ltac:(lia) Ea e Et) as [A1 A2]. destruct (base_bound O range dom HO HX Hdom l1 W1 F1 Hw1 L pt0 iv1 i x0 x1 1 pb HL Lip Ok E M0 M1 ltac:(lia) Eb e Et) as [B1 B2].
  assert (SD := sides). assert (Sg' := Sg). set (va := o_phi O (line l1 pa pt0 (/ 2 * (x0 + x1)))) in *. set (vb := o_phi O (line l1 pb pt0 (/ 2 * (x0 + x1)))) in *.
  assert (G : sign_ok (ps_sign pa) va /\ sign_ok (ps_sign pb) vb).
  { assert (Ci : inc = true \/ inc = false) by (clear; destruct inc; auto). destruct Ci as [Ei|Ei]; rewrite Ei in SD, Sg'; injection Sg' as -> ->; destruct SD as [Q1 Q2]; unfold sign_ok;
      (destruct (Rle_or_lt va 0) as [U|U]; [try (specialize (A1 U); lra)|try (specialize (A2 ltac:(lra)); lra)]); (destruct (Rle_or_lt vb 0) as [V|V]; [try (specialize (B1 V); lra)|try (specialize (B2 ltac:(lra)); lra)]); repeat split; intros; lia || lra. }
  intros [|[|c]] Hc; [exists pa; split; [exact Ea|apply G]|exists pb; split; [exact Eb|apply G]|lia].
Qed.
Lemma face_event refs evs : compute_ref_intervals O [l1; l2] [[]; []] pt0 T0 = Ret refs -> process O range order [l1; l2] refs pt0 T0 T0 = Ret evs -> exists t p x, In (Insert t p x) evs /\ nth j x 0 = e.
Proof.
  intros E H. destruct (refs_inv O range l1 l2 D1 refs E) as (iv1 & rs & E1 & -> & r & -> & Hr). clear E. cbn [process] in H. unfold compute_intervals at 1 in H. rewrite D1 in H. cbn [find_tid] in H.
  assert (Et : tid_eqb T0 T0 = true) by (destruct (tid_eqb_spec T0 T0); congruence). rewrite Et in H. cbn [Nat.eqb bind] in H. rewrite S1 in H.
  destruct (next_face iv1 E1) as (i & x0 & x1 & N0 & N1 & Act & Le & Ee). assert (Li : (i < length (iv_active iv1))%nat) by (apply nth_error_Some; rewrite Act; discriminate).
  destruct (L_Geo7.foreach_sub _ _ _ i H ltac:(apply in_seq; lia)) as (e1 & H' & I1). clear H. unfold M_Mesh.at_ in H'. rewrite Act, N0, N1 in H'. cbn [bind] in H'.
  destruct (node_ends (o_cheb O) order Hends Hord) as [Q0 Q1]. set (jn := if s then (order - 1)%nat else 0%nat).
  destruct (L_Geo7.foreach_sub _ _ _ jn H' ltac:(apply in_seq; unfold jn; destruct s; lia)) as (e2 & H3 & I2). clear H'. cbv zeta in H3.
  assert (Ex : x0 + (x1 - x0) * node01 (o_cheb O) order jn = e) by (rewrite Ee; unfold jn; destruct s; rewrite ?Q0, ?Q1; ring). rewrite Ex in H3.
  apply bind_inv in H3 as (iv & H3 & H4). unfold compute_intervals in H3. destruct (find_tid r (set_at T0 j i)) as [ref|] eqn:Ef; [|discriminate]. destruct (Nat.eqb_spec (l_dim l2) 1); [contradiction|].
  destruct (Hr _ _ Ef) as (i' & z0 & z1 & Ei & _ & N0' & N1' & E2).
  assert (i = i'). { assert (K : forall c, nth j (set_at T0 j c) 0%nat = c). { intros c. rewrite set_at_nth, Nat.eqb_refl. unfold tp_const. rewrite repeat_length. pose proof (wf_dir _ _ W1). destruct (Nat.ltb_spec j range); [reflexivity|lia]. } rewrite <- (K i), <- (K i'), Ei. reflexivity. }
  subst i'. rewrite N0 in N0'. rewrite N1 in N1'. injection N0' as <-. injection N1' as <-.
  assert (Hx : x0 <= e <= x1) by (rewrite Ee; destruct s; lra). rewrite S2 in H4. injection H4 as <-.
  assert (TM : (iv_ri ref = ent (full_list l2 []) /\ no_cross O l2 p0 (pt (/ 2 * (x0 + x1)))) \/ (exists r', iv_ri ref = ent (full_list l2 [(r', 0%Z)]))).
  { destruct (top_mid O range order dom HO HX Hdom Hord l1 l2 p0 inc W1 W2 D1 D2 S1 C1 C2 Box Free F1 F2 Only E0 Ls Sg0 Hw Hmono Hbig iv1 ref i x0 x1 e E1 N0 N1 Hx E2) as [(A & B & _)|(r0 & r' & A & _)]; [left; auto|right; exists r'; exact A]. }
  destruct TM as [[_ Nc]|(r' & Er)].
  - exfalso. destruct (all_geo O range HO l1 W1 F1 pt0 iv1 ltac:(apply repeat_length) E1) as (_ & mid & _ & _ & Er & _ & _ & _ & _ & _ & Ha). rewrite S1 in Ha.
    destruct (active_true O range l1 W1 F1 _ pt0 pt0 _ i (same_refl range l1 pt0 (repeat_length _ _)) Ha Act) as (w0 & w1 & M0 & M1 & _ & Hs). rewrite Er in N0, N1. cbn [ent ri_roots] in N0, N1. rewrite N0 in M0. rewrite N1 in M1. injection M0 as <-. injection M1 as <-.
    destruct (Hs 0%nat ltac:(lia)) as (p & Ep & G0). rewrite Ea in Ep. injection Ep as <-. destruct (Hs 1%nat ltac:(lia)) as (p & Ep & G1). rewrite Eb in Ep. injection Ep as <-. rewrite line_a' in G0. rewrite line_b' in G1. unfold no_cross in Nc.
    assert (Sg' := Sg). assert (Ci : inc = true \/ inc = false) by (clear; destruct inc; auto). destruct Ci as [Ei'|Ei']; rewrite Ei' in Sg'; injection Sg' as Ga Gb; rewrite Ga in G0; rewrite Gb in G1; [apply sign_nonpos in G0; apply sign_pos in G1|apply sign_pos in G0; apply sign_nonpos in G1]; lra.
  - destruct (sim_root O range order dom HO HX Hdom Hord l1 l2 p0 inc W1 W2 D1 D2 S1 C1 C2 Box Free F1 F2 Only E0 Ls Hw Hmono iv1 ref iv i x0 x1 e E1 N0 N1 Hx H3 r' Er) as (q & _ & _ & Eq & _). rewrite S2 in Eq. rewrite Eq in I2. eexists _, _, _. split; [apply I1, I2; left; reflexivity|].
    assert (J : j <> k) by (eapply jk; eassumption). rewrite set_at_nth. destruct (Nat.eqb_spec k j); [congruence|]. rewrite set_at_nth, Nat.eqb_refl, repeat_length. pose proof (wf_dir _ _ W1). destruct (Nat.ltb_spec j range); [reflexivity|lia].
Qed.
End Face.
Lemma height_chosen O dom k : chooses O dom k -> large_box 2 dom -> height_direction O 2 (repeat true 2) dom (mk_psi (tp_const 2 0%nat) (-1)) = Some k.
Proof.
  intros (Hk & _ & Hs & Hq) (_ & _ & HB). assert (Tp : 0 < 2 ^ 32 * (10 * / 2 ^ 52)) by (apply Rmult_lt_0_compat; [apply pow_lt; lra|apply Rmult_lt_0_compat; [lra|apply Rinv_0_lt_compat, pow_lt; lra]]).
  assert (B0 := HB 0%nat ltac:(lia)). assert (B1 := HB 1%nat ltac:(lia)). unfold height_direction, height_step, extent, hi, lo. cbn [seq fold_left repeat nth andb tp_const]. cbv zeta in Hs, Hq. set (g0 := o_grad O [true; true] dom (mk_psi [0; 0]%nat (-1)) 0) in *. set (g1 := o_grad O [true; true] dom (mk_psi [0; 0]%nat (-1)) 1) in *.
  assert (P0 : 0 <= Rabs (fst (fst g0)) * (nth 0 (bmax dom) 0 - nth 0 (bmin dom) 0)) by (apply Rmult_le_pos; [apply Rabs_pos|lra]). assert (P1 : 0 <= Rabs (fst (fst g1)) * (nth 1 (bmax dom) 0 - nth 1 (bmin dom) 0)) by (apply Rmult_le_pos; [apply Rabs_pos|lra]).
  destruct k as [|[|k]]; [..|lia]; cbn [Nat.sub] in Hs, Hq; fold g0 g1 in Hs, Hq.
  - rewrite (proj2 (Rltb_true (1001 / 1000 * snd (fst g0)) (Rabs (fst (fst g0))))) by exact Hs. rewrite (proj2 (Rltb_true (fst (0, @None nat)) _)) by (cbn [fst]; lra). cbn [fst]. destruct (Rltb (1001 / 1000 * snd (fst g1)) (Rabs (fst (fst g1)))); [|reflexivity]. rewrite (proj2 (Rltb_false _ _)) by lra. reflexivity.
  - rewrite (proj2 (Rltb_true (1001 / 1000 * snd (fst g1)) (Rabs (fst (fst g1))))) by exact Hs. match goal with |- snd (if Rltb (fst ?a) ?q then _ else _) = _ => assert (Q : fst a < q); [|rewrite (proj2 (Rltb_true _ _) Q); reflexivity] end.
    destruct (Rltb (1001 / 1000 * snd (fst g0)) (Rabs (fst (fst g0)))); [|cbn [fst]; lra]. destruct (Rltb (fst (0, None)) _); cbn [fst]; lra.
Qed.
Lemma run_appends cheb mdim t p x : forall evs m mp m' mp', foldM (run_event cheb mdim) evs (m, mp) = Ret (m', mp') -> In (Insert t p x) evs -> exists np, m_points m' = m_points m ++ np /\ In x np.
Proof.
  assert (K : forall evs m mp m' mp', foldM (run_event cheb mdim) evs (m, mp) = Ret (m', mp') -> exists np, m_points m' = m_points m ++ np).
  { intros evs m mp m' mp' E. destruct (run_points cheb mdim (m_order m) (fun _ => True) (fun _ => True) ltac:(auto) evs m mp m' mp' eq_refl) as [_ (np & H & _)]; [|exact E|exists np; exact H]. apply Forall_forall. intros e _. destruct e; exact I. }
  induction evs as [|e evs IH]; intros m mp m' mp' E [->|Hin] || intros ? ? ? ? ? []; cbn [foldM] in E; apply bind_inv in E as ([m1 mp1] & E1 & E2).
  - destruct (K _ _ _ _ _ E2) as (np & ->). cbn [run_event fst snd] in E1. destruct (find_tid mp t) as [c|]; apply bind_inv in E1 as (m2 & E1 & E3); injection E3 as <- _; unfold insert_cell_point, allocate_cells in E1; cbn [fst snd] in E1; apply assert_inv in E1 as [_ E1]; injection E1 as <-; cbn [m_points];
      exists (x :: np); (split; [rewrite <- app_assoc; reflexivity|left; reflexivity]).
  - destruct (IH _ _ _ _ E2 Hin) as (np & -> & Hx). destruct (K [e] m mp m1 mp1) as (n1 & ->); [cbn [foldM]; rewrite E1; reflexivity|]. exists (n1 ++ np). split; [rewrite app_assoc; reflexivity|apply in_or_app; right; exact Hx].
Qed.

Section Plane2.
Variables (O : oracles) (order : nat) (dom : bbox) (M : R) (k sd : nat).
Hypothesis HO : sound O 2.
Hypothesis HX : exact O dom.
Hypothesis HB : large_box 2 dom.
Hypothesis HM : moderate (o_phi O) dom M.
Hypothesis Hord : (2 <= order)%nat.
Hypothesis Hends : ends_nodes (o_cheb O).
Hypothesis Hch : chooses O dom k.
Hypothesis Hcr : crosses_face (o_phi O) dom (1 - k) sd (accuracy M).
Notation p0 := (mk_psi (tp_const 2 0%nat) (-1)).
Notation psi0 := (set_at (repeat (o_psi O) (n_facets 2)) 0 p0).
Notation free := (repeat true 2).
Notation inc := (Rltb 0 (fst (fst (o_grad O free dom p0 k)))).
Notation pa := (mk_psi (set_at (tp_const 2 0%nat) k 0%nat) (fst (o_signs O true inc (-1)))).
Notation pb := (mk_psi (set_at (tp_const 2 0%nat) k 1%nat) (snd (o_signs O true inc (-1)))).
Notation new := (set_at (set_at (repeat (o_psi O) (n_facets 2)) 0 pa) (0 + 1) pb).
Notation l1 := (mk_obj 1 false (set_at free k false) new 2 dom (1 - k)).
Notation l2 := (mk_obj 2 true free psi0 1 dom k).
Lemma k2 : k = 0%nat \/ k = 1%nat.
Proof. destruct Hch as [H _]. lia. Qed.
Lemma dom_face x : in_box dom x -> on_face free dom p0 x.
Proof. intros H. split; [exact H|]. intros d Hd Hf. exfalso. destruct H as [H _]. rewrite (proj1 HB) in H. destruct d as [|[|d]]; cbn in Hf; try discriminate. lia. Qed.
Lemma dom_in : within dom dom.
Proof. apply (i_in 2 dom 16), inv_first. exact HB. Qed.
Lemma not_uniform : snd (o_value O free dom p0) = false.
Proof.
  destruct (snd (o_value O free dom p0)) eqn:E; [exfalso|reflexivity]. destruct Hcr as (a & b & Ha & Hb & _ & _ & Va & Vb). assert (A := e_value O dom HX free dom p0 a dom_in E (dom_face a Ha)). assert (B := e_value O dom HX free dom p0 b dom_in E (dom_face b Hb)).
  assert (Ac : 0 <= accuracy M). { unfold accuracy. destruct HM as (H1 & _). assert (0 < / 2 ^ 52) by (apply Rinv_0_lt_compat, pow_lt; lra). apply Rmult_le_pos; lra. } nra.
Qed.
Lemma face_construct evs refs' : construct O 2 order 2 n_max_subdivs true [] [] free psi0 1 dom = Ret (evs, refs') ->
  exists refs es, compute_ref_intervals O [l1; l2] [[]; []] (repeat 0 2) (tp_const 2 0%nat) = Ret refs /\ process O 2 order [l1; l2] refs (repeat 0 2) (tp_const 2 0%nat) (tp_const 2 0%nat) = Ret es /\ evs = Clear :: es.
Proof.
  rewrite construct_S. unfold prune. cbn [prune_loop Nat.ltb Nat.leb]. change (nth_error psi0 0) with (Some p0). cbn [bind]. rewrite not_uniform. cbn [bind negb Nat.eqb]. unfold psi_at. change (nth_error psi0 0) with (Some p0). cbn [bind].
  rewrite (height_chosen O dom k Hch HB). cbn [reduce_loop]. unfold psi_at. change (nth_error psi0 0) with (Some p0). cbn [bind]. assert (Eg : snd (o_grad O free dom p0 k) = true) by (destruct Hch as (_ & H & _); exact H). rewrite Eg. cbn [fst snd length repeat n_facets Nat.sub Nat.pow Nat.mul Nat.add Nat.ltb Nat.leb bind]. intros E.
  change [true; true] with free in E. apply bind_inv in E as ([es rs] & E & E2). injection E2 as <- <-. rewrite construct_1 in E.
  assert (Ef : rev (filter (fun d => nth d (set_at free k false) false) (seq 0 2)) = [(1 - k)%nat]) by (destruct k2 as [-> | ->]; reflexivity). rewrite Ef in E. cbv zeta in E. apply bind_inv in E as (refs & E1 & E). apply bind_inv in E as (evs0 & E2 & E). injection E as <- <-. exists refs, evs0. split; [exact E1|]. split; [exact E2|reflexivity].
Qed.
Lemma full_point x : in_box dom x -> nth (1 - k) x 0 = side_coord dom sd (1 - k) -> line l2 p0 (set_at (repeat 0 2) (1 - k) (side_coord dom sd (1 - k))) (nth k x 0) = x /\ inside l2 (nth k x 0).
Proof.
  intros [Lx Hx] E. rewrite (proj1 HB) in Lx. destruct x as [|x0 [|x1 [|]]]; cbn in Lx; try lia. destruct k2 as [Ek|Ek]; rewrite Ek in *; cbn [Nat.sub nth] in *; rewrite <- E; (split; [reflexivity|]); unfold inside, X0, X1, lo, hi; cbn [l_box l_dir]; [apply (Hx 0%nat)|apply (Hx 1%nat)]; cbn; lia.
Qed.
Lemma face_top evs refs' : (sd < 2)%nat -> construct O 2 order 2 n_max_subdivs true [] [] free psi0 1 dom = Ret (evs, refs') -> exists t p x, In (Insert t p x) evs /\ nth (1 - k) x 0 = side_coord dom sd (1 - k).
Proof.
  intros Hsd E. destruct (face_construct evs refs' E) as (refs & es & E1 & E2 & ->). clear E. assert (Tp := default_tol_pos). destruct HB as (L1 & L2 & L3). assert (I16 := inv_first 2 dom HB). assert (Hpos := ext_pos 2 dom 16 dom I16). assert (P16 : 1 <= 2 ^ 16) by (apply pow_R1_Rle; lra).
  assert (Hj : (1 - k < 2)%nat) by lia. assert (Hk : (k < 2)%nat) by (destruct k2; lia). assert (HM' := HM). destruct HM' as (M1 & HMe & L & L0 & LM & Lip).
  assert (W1 : wf_obj 2 l1). { split; cbn [l_free l_box l_dir l_psi l_count l_dim l_S]; try rewrite set_at_length; try reflexivity; try lia; try discriminate. change (default_tol < extent dom (1 - k)). specialize (Hpos (1 - k)%nat Hj). nra. }
  assert (W2 : wf_obj 2 l2). { split; cbn [l_free l_box l_dir l_psi l_count l_dim l_S]; try reflexivity; try lia; try discriminate; try (cbn; lia). change (default_tol < extent dom k). specialize (Hpos k Hk). nra. }
  assert (t1 : compute_tolerance l1 <= M * default_tol). { unfold compute_tolerance, tol_update. cbn [l_box l_dir]. apply Rmax_lub; [nra|]. assert (X := HMe (1 - k)%nat ltac:(lia)). unfold extent, hi, lo. nra. }
  assert (Big : 2 * compute_tolerance l2 < X1 l2 - X0 l2).
  { unfold compute_tolerance, tol_update, X1, X0. cbn [l_box l_dir]. fold (extent dom k). specialize (Hpos k Hk). assert (65536 * default_tol < extent dom k) by (replace 65536 with (2 ^ 16) by ring; exact Hpos). pose proof L_Geo7.tol_small. unfold Rmax; destruct (Rle_dec _ _); nra. }
  destruct Hcr as (a & b & Ha & Hb & Ea & Eb & Va & Vb). destruct (full_point a Ha Ea) as [Fa Ia]. destruct (full_point b Hb Eb) as [Fb Ib]. assert (Hdf := dom_face). assert (Hdi := dom_in).
  assert (Eg : snd (o_grad O free dom p0 k) = true) by (destruct Hch as (_ & H & _); exact H).
  assert (F2 : nth k free true = true) by (destruct k2 as [-> | ->]; reflexivity). assert (F2' : nth k free false = true) by (destruct k2 as [-> | ->]; reflexivity).
  assert (Hmono : forall pt s t, okpt 2 l2 pt -> inside l2 s -> inside l2 t -> s < t -> if inc then o_phi O (line l2 p0 pt s) < o_phi O (line l2 p0 pt t) else o_phi O (line l2 p0 pt t) < o_phi O (line l2 p0 pt s)).
  { intros pt s t Hp Hs Ht Hst. assert (Q : forall u, inside l2 u -> on_face free dom p0 (line l2 p0 pt u)) by (intros u Hu; apply Hdf; apply (line_dom 2 dom L1 l2 W2 F2 Hdi); assumption).
    assert (G := e_grad O dom HX free dom p0 k _ s t Hdi F2' Eg (Q s Hs) (Q t Ht) Hst). fold (line l2 p0 pt t) in G. change (set_at (set_psi_bounds l2 p0 pt) k s) with (line l2 p0 pt s) in G. change (set_at (set_psi_bounds l2 p0 pt) k t) with (line l2 p0 pt t) in G.
    unfold Rltb. destruct (Rlt_dec 0 (fst (fst (o_grad O free dom p0 k)))); nra. }
  assert (Sgs : (ps_sign pa, ps_sign pb) = (if inc then (-1, 1) else (1, -1))%Z) by (cbn [ps_sign]; rewrite <- surjective_pairing; apply (e_signs_levelset O dom HX)).
  destruct (face_event O 2 order dom HO HX L1 Hord Hends l1 l2 p0 pa pb inc L W1 W2 eq_refl ltac:(discriminate) eq_refl eq_refl eq_refl eq_refl eq_refl eq_refl ltac:(destruct k2 as [-> | ->]; reflexivity) F2) with (eta := accuracy M) (e := side_coord dom sd (1 - k)) (y1 := nth k a 0) (y2 := nth k b 0) (s := negb (sd =? 0)%nat) (refs := refs) (evs := es) as (t & p & x & Hin & Hx); try assumption; try reflexivity.
  - intros d Hd. destruct k2 as [-> | ->]; destruct d as [|[|d]]; cbn; intros; try lia; try discriminate; reflexivity.
  - rewrite acc_eq. nra.
  - unfold side_coord, X1, X0, hi, lo. cbn [l_box l_dir]. destruct (Nat.eqb_spec sd 0); reflexivity.
  - cbn [l_dir]. rewrite Fa. exact Va.
  - cbn [l_dir]. rewrite Fb. exact Vb.
  - exists t, p, x. split; [right; exact Hin|exact Hx].
Qed.
End Plane2.
