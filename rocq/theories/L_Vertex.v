(** The vertices of the box in the mesh of a region of the plane. *)
From Coq Require Import Reals List Lia Lra Permutation Sorted Arith ZArith.
From Verif Require Import M_Reparam M_General S_General S_Geo S_Faces S_Mesh S_Roots L_Real L_BBox L_Point L_TensorNat L_Mesh L_Mesh5 L_Roots P_Roots L_General L_General2 L_General3 L_General4 L_General5 L_General6 L_General7 L_Reparam L_Reparam3 L_Geo1 L_Geo2 L_Geo3 L_Geo4 L_Geo5 L_Faces.
From Verif Require L_Geo7.
Import ListNotations.
Local Close Scope Z_scope. Local Close Scope nat_scope. Local Open Scope R_scope.

Section Corner.
Variables (O : oracles) (range order : nat) (dom : bbox).
Hypothesis HO : sound O range.
Hypothesis HX : exact O dom.
Hypothesis Hdom : length (bmin dom) = range.
Hypothesis Hord : (2 <= order)%nat.
Hypothesis Hends : ends_nodes (o_cheb O).
Variables (l1 l2 : obj) (p0 pa pb : psi_code) (inc : bool) (L : R).
Hypothesis W1 : wf_obj range l1.
Hypothesis W2 : wf_obj range l2.
Hypothesis D1 : l_dim l1 = 1%nat.
Hypothesis D2 : l_dim l2 <> 1%nat.
Hypothesis D2r : l_dim l2 = range.
Hypothesis S1 : l_S l1 = false.
Hypothesis S2 : l_S l2 = false.
Hypothesis C1 : l_count l1 = 2%nat.
Hypothesis C2 : l_count l2 = 1%nat.
Hypothesis Box : l_box l1 = l_box l2.
Hypothesis Free : l_free l1 = set_at (l_free l2) (l_dir l2) false.
Hypothesis F1 : nth (l_dir l1) (l_free l1) true = true.
Hypothesis F2 : nth (l_dir l2) (l_free l2) true = true.
Hypothesis Only : forall d, (d < range)%nat -> nth d (l_free l1) true = true -> d = l_dir l1.
Hypothesis Ea : nth_error (l_psi l1) 0 = Some pa.
Hypothesis Eb : nth_error (l_psi l1) 1 = Some pb.
Hypothesis E0 : nth_error (l_psi l2) 0 = Some p0.
Hypothesis Sa : ps_side pa = set_at (ps_side p0) (l_dir l2) 0%nat.
Hypothesis Sb : ps_side pb = set_at (ps_side p0) (l_dir l2) 1%nat.
Hypothesis Ls : length (ps_side p0) = range.
Hypothesis Sg0 : ps_sign p0 = (-1)%Z.
Hypothesis Sg : (ps_sign pa, ps_sign pb) = (if inc then (-1, 0) else (0, -1))%Z.
Hypothesis Hw : within (l_box l2) dom.
Notation j := (l_dir l1).
Notation k := (l_dir l2).
Notation f := (fun pt t => o_phi O (line l2 p0 pt t)).
Notation pt0 := (repeat 0 range).
Notation pt := (fun X => set_at pt0 j X).
Notation T0 := (tp_const range 0%nat).
Notation tol1 := (compute_tolerance l1).
Notation tol2 := (compute_tolerance l2).
Hypothesis Hmono : forall pt s t, okpt range l2 pt -> inside l2 s -> inside l2 t -> s < t -> if inc then f pt s < f pt t else f pt t < f pt s.
Hypothesis Hbig : 2 * tol2 < X1 l2 - X0 l2.
Hypothesis HL : 0 <= L.
Hypothesis Lip : lipschitz (o_phi O) L dom.
Variables (eta e : R) (s vs : bool).
Hypothesis Heta : L * tol2 <= eta.
Hypothesis He : e = if s then X1 l1 else X0 l1.
Hypothesis Clear : forall X, inside l1 X -> eta < Rabs (f (pt X) (X0 l2)) /\ eta < Rabs (f (pt X) (X1 l2)).
Hypothesis Neg : f (pt e) (if vs then X1 l2 else X0 l2) < 0.
Lemma c_in : inside l1 e.
Proof. pose proof (x_lt range l1 W1). unfold inside. rewrite He. destruct s; lra. Qed.
Lemma c_line_a X : line l1 pa pt0 X = line l2 p0 (pt X) (X0 l2).
Proof. eapply line_a; eassumption. Qed.
Lemma c_line_b X : line l1 pb pt0 X = line l2 p0 (pt X) (X1 l2).
Proof. eapply line_b; eassumption. Qed.
Lemma c_ok X : inside l1 X -> okpt range l2 (pt X).
Proof. intros H. eapply ok2; try eassumption. Qed.
Lemma eta0 : 0 <= eta.
Proof. pose proof (tol_ok range l2 W2). nra. Qed.
Lemma c_Hw1 : within (l_box l1) dom.
Proof. rewrite Box. exact Hw. Qed.
(** No roots on the two sides. *)
Lemma no_roots i rs : (i < 2)%nat -> compute_roots O l1 pt0 i = Ret rs -> rs = [].
Proof.
  intros Hi E. assert (Ok := ok1 range l1 Only). destruct (roots_geo O range dom HO HX Hdom l1 W1 F1 c_Hw1 pt0 i rs Ok ltac:(lia) E) as (p & Ep & _ & Hz & _). destruct rs as [|r rs]; [reflexivity|exfalso]. destruct (Hz r ltac:(left; reflexivity)) as [Ir Zr]. destruct (Clear r Ir) as [A B]. pose proof eta0.
  destruct i as [|[|i]]; [..|lia]; [rewrite Ea in Ep|rewrite Eb in Ep]; injection Ep as <-; [rewrite c_line_a in Zr|rewrite c_line_b in Zr]; cbv beta in *; rewrite Zr, Rabs_R0 in *; lra.
Qed.
Lemma keep i X Y : (i < 2)%nat -> inside l1 X -> inside l1 Y -> (exists rs, compute_roots O l1 pt0 i = Ret rs) -> forall p, nth_error (l_psi l1) i = Some p -> o_phi O (line l1 p pt0 X) < 0 -> o_phi O (line l1 p pt0 Y) < 0.
Proof.
  intros Hi HX' HY (rs & E) p Ep H. assert (En := no_roots i rs Hi E). subst rs. assert (Ok := ok1 range l1 Only). destruct (roots_geo O range dom HO HX Hdom l1 W1 F1 c_Hw1 pt0 i [] Ok ltac:(lia) E) as (p' & Ep' & _ & _ & Hc). rewrite Ep in Ep'. injection Ep' as <-.
  destruct (Rlt_or_le (o_phi O (line l1 p pt0 Y)) 0) as [G|G]; [exact G|exfalso]. destruct (Hc X Y HX' HY ltac:(lra) ltac:(lra)) as (r & [] & _).
Qed.
Lemma neg_all X : inside l1 X -> f (pt X) (if vs then X1 l2 else X0 l2) < 0.
Proof.
  intros HX'. assert (R : forall i, (i < 2)%nat -> exists rs, compute_roots O l1 pt0 i = Ret rs) by (intros i Hi; destruct (compute_roots_ok O range HO l1 pt0 i W1 ltac:(lia)) as (rs & E' & _); exists rs; exact E').
  assert (Cv : vs = true \/ vs = false) by (clear; destruct vs; auto). assert (N := Neg). destruct Cv as [Ev|Ev]; rewrite Ev in *; cbv beta in *.
  - rewrite <- c_line_b in N |- *. apply (keep 1 e X ltac:(lia) c_in HX' (R 1%nat ltac:(lia)) pb Eb N).
  - rewrite <- c_line_a in N |- *. apply (keep 0 e X ltac:(lia) c_in HX' (R 0%nat ltac:(lia)) pa Ea N).
Qed.
(** The side from which the function increases is in the region. *)
Lemma low X : inside l1 X -> f (pt X) (if inc then X0 l2 else X1 l2) < 0.
Proof.
  intros HX'. assert (N := neg_all X HX'). destruct (ends_inside range l2 W2) as [I0 I1]. pose proof (x_lt range l2 W2) as Hx. assert (ML := Hmono (pt X) _ _ (c_ok X HX') I0 I1 Hx). cbv beta in *. clear - N ML. destruct vs, inc; lra.
Qed.
Lemma base_iv iv1 : compute_all_intervals O l1 pt0 = Ret iv1 -> ri_roots (iv_ri iv1) = [X0 l1; X1 l1] /\ nth_error (iv_active iv1) 0 = Some true.
Proof.
  intros E. destruct (all_geo O range HO l1 W1 F1 pt0 iv1 ltac:(apply repeat_length) E) as (g & mid & sl & Hg & Er & HS & PS & MV & Va & _ & Ha). rewrite C1 in *. rewrite S1 in Ha. pose proof (tol_ok range l1 W1) as T.
  unfold tagged in PS. cbn [seq flat_map] in PS. rewrite (no_roots 0 _ ltac:(lia) (Hg 0%nat ltac:(lia))), (no_roots 1 _ ltac:(lia) (Hg 1%nat ltac:(lia))) in PS. cbn [map app] in PS. apply Permutation_sym, Permutation_nil in PS. subst sl. inversion MV; subst mid. rewrite Er. split; [reflexivity|].
  refine (active_conv O range l1 W1 F1 _ pt0 pt0 _ 0 (X0 l1) (X1 l1) (same_refl range l1 pt0 (repeat_length _ _)) Ha eq_refl eq_refl _ _); [rewrite Rabs_pos_eq; lra|].
  assert (Im : inside l1 (/ 2 * (X0 l1 + X1 l1))) by (unfold inside; lra). assert (N := low _ Im). assert (Sg' := Sg). rewrite C1. intros [|[|c]] Hc; [exists pa; split; [exact Ea|]|exists pb; split; [exact Eb|]|lia];
    (assert (Ci : inc = true \/ inc = false) by (clear; destruct inc; auto); destruct Ci as [Ei|Ei]; rewrite Ei in Sg', N; injection Sg' as Ga Gb); rewrite ?Ga, ?Gb, ?c_line_a, ?c_line_b; split; intros; cbv beta in *; lia || lra.
Qed.
(** The two cases at the middle of the base. *)
Notation m := (/ 2 * (X0 l1 + X1 l1)).
Lemma m_in : inside l1 m.
Proof. pose proof (x_lt range l1 W1). unfold inside. lra. Qed.
Lemma mid_ref ref : compute_all_intervals O l2 (pt m) = Ret ref ->
  (iv_ri ref = ent (full_list l2 []) /\ nth_error (iv_active ref) 0 = Some true) \/
  (exists r, iv_ri ref = ent (full_list l2 [(r, 0%Z)]) /\ vs = negb inc /\ nth_error (iv_active ref) (if inc then 0%nat else 1%nat) = Some true).
Proof.
  intros E. assert (Ok := c_ok m m_in). destruct (all_geo O range HO l2 W2 F2 (pt m) ref (proj1 Ok) E) as (g & mid & sl & Hg & Er & HS & PS & MV & Va & _ & Ha). rewrite C2 in *. rewrite S2 in Ha. unfold tagged in PS, Va. cbn [seq flat_map] in PS, Va. rewrite app_nil_r in PS, Va. change (Z.of_nat 0) with 0%Z in PS, Va.
  destruct (ends_inside range l2 W2) as [I0 I1]. pose proof (tol_ok range l2 W2) as T. pose proof (x_lt range l2 W2) as Hx. assert (Lo := low m m_in). assert (Ng := neg_all m m_in). destruct (Clear m m_in) as [K0 K1]. assert (E00 := eta0). cbv beta in *.
  assert (Ci : inc = true \/ inc = false) by (clear; destruct inc; auto). assert (ML := mono_le O range l2 p0 inc Hmono (pt m)). cbv beta in ML.
  destruct (top_roots O range dom HO HX Hdom l2 W2 F2 Hw p0 inc C2 E0 Hmono (pt m) (g 0%nat) Ok (Hg 0%nat ltac:(lia))) as [[Eg Nc]|(r & Eg & Ir & Zr)]; rewrite Eg in PS, Va; cbn [map] in PS, Va.
  - left. apply Permutation_sym, Permutation_nil in PS. subst sl. inversion MV; subst mid. split; [exact Er|]. refine (active_conv O range l2 W2 F2 _ (pt m) (pt m) _ 0 (X0 l2) (X1 l2) (same_refl range l2 _ (proj1 Ok)) Ha eq_refl eq_refl _ _); [rewrite Rabs_pos_eq; lra|].
    assert (Im : inside l2 (/ 2 * (X0 l2 + X1 l2))) by (unfold inside; lra). intros [|c] Hc; [|lia]. exists p0. split; [exact E0|]. rewrite Sg0. assert (A := ML _ _ Ok I0 Im ltac:(lra)). assert (B := ML _ _ Ok Im I1 ltac:(lra)). unfold no_cross in Nc. split; intros; [exfalso|lia]. clear - Nc Lo A B H. destruct inc; lra.
  - right. apply Permutation_sym, Permutation_length_1_inv in PS. subst sl. assert (Hm : exists r' z, mid = [(r', z)] /\ z = 0%Z /\ Rabs (r - r') <= tol2). { clear - MV. inversion MV as [|a b c d [M1 M2] M3]; subst. inversion M3; subst. destruct b as [r' z]. cbn [fst snd] in *. exists r', z. split; [reflexivity|]. split; [congruence|exact M2]. } destruct Hm as (r' & z & -> & -> & M2). assert (Vr := Forall_inv Va). cbn [fst In] in Vr.
    assert (Far : forall x, inside l2 x -> eta < Rabs (f (pt m) x) -> tol2 < Rabs (r - x)).
    { intros x Ix Hxe. assert (D : forall t, inside l2 t -> in_box dom (line l2 p0 (pt m) t)) by (intros t Ht; apply (line_dom range dom Hdom l2 W2 F2 Hw); assumption). assert (K : Rabs (o_phi O (line l2 p0 (pt m) x) - o_phi O (line l2 p0 (pt m) r)) <= L * Rabs (x - r)) by exact (Lip _ _ _ _ (D _ Ir) (D _ Ix)). cbv beta in *. rewrite Zr, Rminus_0_r in K.
      destruct (Rle_or_lt (Rabs (r - x)) tol2) as [G|G]; [exfalso|exact G]. rewrite Rabs_minus_sym in G. assert (L * Rabs (x - r) <= L * tol2) by (apply Rmult_le_compat_l; assumption). lra. }
    assert (R0 := Far _ I0 K0). assert (R1 := Far _ I1 K1). assert (r' = r) by (destruct Vr as [V|[V|[V|[]]]]; [rewrite V in M2; lra|rewrite V in M2; lra|symmetry; exact V]). subst r'. exists r. split; [exact Er|].
    assert (Q0 : Rabs (r - X0 l2) = r - X0 l2) by (apply Rabs_pos_eq; unfold inside in Ir; lra). assert (Q1 : Rabs (X1 l2 - r) = X1 l2 - r) by (apply Rabs_pos_eq; unfold inside in Ir; lra). rewrite Rabs_minus_sym, Q1 in R1. rewrite Q0 in R0.
    assert (A := ML _ _ Ok I0 Ir ltac:(apply Ir)). assert (B := ML _ _ Ok Ir I1 ltac:(apply Ir)).
    split; [clear - Ng A B Zr; destruct vs, inc; cbn [negb]; try reflexivity; lra|]. change (map fst (full_list l2 [(r, 0%Z)])) with [X0 l2; r; X1 l2] in Ha.
    destruct Ci as [Ei|Ei]; rewrite Ei in A, B |- *.
    + refine (active_conv O range l2 W2 F2 _ (pt m) (pt m) _ 0 (X0 l2) r (same_refl range l2 _ (proj1 Ok)) Ha eq_refl eq_refl _ _); [lra|]. assert (Iq : inside l2 (/ 2 * (X0 l2 + r))) by (unfold inside in *; lra). intros [|c] Hc; [|lia]. exists p0. split; [exact E0|]. rewrite Sg0. assert (G := ML _ _ Ok Iq Ir ltac:(lra)). rewrite Ei in G. split; intros; [exfalso; lra|lia].
    + refine (active_conv O range l2 W2 F2 _ (pt m) (pt m) _ 1 r (X1 l2) (same_refl range l2 _ (proj1 Ok)) Ha eq_refl eq_refl _ _); [lra|]. assert (Iq : inside l2 (/ 2 * (r + X1 l2))) by (unfold inside in *; lra). intros [|c] Hc; [|lia]. exists p0. split; [exact E0|]. rewrite Sg0. assert (G := ML _ _ Ok Ir Iq ltac:(lra)). rewrite Ei in G. split; intros; [exfalso; lra|lia].
Qed.
Lemma corner_event refs evs : compute_ref_intervals O [l1; l2] [[]; []] pt0 T0 = Ret refs -> process O range order [l1; l2] refs pt0 T0 T0 = Ret evs -> exists t p, In (Insert t p (set_at (pt e) k (if vs then X1 l2 else X0 l2))) evs.
Proof.
  intros E H. destruct (refs_inv O range l1 l2 D1 refs E) as (iv1 & rs & E1 & -> & r & -> & Hr). clear E. cbn [process] in H. unfold compute_intervals at 1 in H. rewrite D1 in H. cbn [find_tid] in H.
  assert (Et : tid_eqb T0 T0 = true) by (destruct (tid_eqb_spec T0 T0); congruence). rewrite Et in H. cbn [Nat.eqb bind] in H. rewrite S1 in H.
  destruct (base_iv iv1 E1) as [R1 Act]. assert (Li : (0 < length (iv_active iv1))%nat) by (apply nth_error_Some; rewrite Act; discriminate).
  destruct (L_Geo7.foreach_sub _ _ _ 0%nat H ltac:(apply in_seq; lia)) as (e1 & H' & I1). clear H. unfold M_Mesh.at_ in H'. rewrite Act, R1 in H'. cbn [bind nth_error] in H'.
  destruct (node_ends (o_cheb O) order Hends Hord) as [Q0 Q1]. set (jn := if s then (order - 1)%nat else 0%nat).
  destruct (L_Geo7.foreach_sub _ _ _ jn H' ltac:(apply in_seq; unfold jn; destruct s; lia)) as (e2 & H3 & I2). clear H'. cbv zeta in H3.
  assert (Ex : X0 l1 + (X1 l1 - X0 l1) * node01 (o_cheb O) order jn = e) by (rewrite He; unfold jn; destruct s; rewrite ?Q0, ?Q1; ring). rewrite Ex in H3.
  apply bind_inv in H3 as (iv & H3 & H4). unfold compute_intervals in H3. destruct (find_tid r (set_at T0 j 0%nat)) as [ref|] eqn:Ef; [|discriminate]. destruct (Nat.eqb_spec (l_dim l2) 1); [contradiction|].
  destruct (Hr _ _ Ef) as (i' & z0 & z1 & Ei & _ & N0' & N1' & E2).
  assert (0%nat = i'). { assert (K : forall c, nth j (set_at T0 j c) 0%nat = c). { intros c. rewrite set_at_nth, Nat.eqb_refl. unfold tp_const. rewrite repeat_length. pose proof (wf_dir _ _ W1). destruct (Nat.ltb_spec j range); [reflexivity|lia]. } rewrite <- (K 0%nat), <- (K i'), Ei. reflexivity. }
  subst i'. rewrite R1 in N0', N1'. cbn [nth_error] in N0', N1'. injection N0' as <-. injection N1' as <-. rewrite S2 in H4.
  assert (Hx : X0 l1 <= e <= X1 l1) by (apply c_in). assert (N0 : nth_error (ri_roots (iv_ri iv1)) 0 = Some (X0 l1)) by (rewrite R1; reflexivity). assert (N1 : nth_error (ri_roots (iv_ri iv1)) 1 = Some (X1 l1)) by (rewrite R1; reflexivity).
  assert (G : exists a x0 x1, nth_error (iv_active iv) a = Some true /\ nth_error (ri_roots (iv_ri iv)) a = Some x0 /\ nth_error (ri_roots (iv_ri iv)) (Datatypes.S a) = Some x1 /\ (if vs then x1 = X1 l2 else x0 = X0 l2)).
  { destruct (mid_ref ref E2) as [[Er Ar]|(q0 & Er & Ev & Ar)].
    - assert (iv = ref) by (apply (similar_none O l2 ref (pt e)); assumption). subst iv. exists 0%nat, (X0 l2), (X1 l2). rewrite Er. split; [exact Ar|]. split; [reflexivity|]. split; [reflexivity|]. destruct vs; reflexivity.
    - destruct (sim_root O range order dom HO HX Hdom Hord l1 l2 p0 inc W1 W2 D1 D2 S1 C1 C2 Box Free F1 F2 Only E0 Ls Hw Hmono iv1 ref iv 0 (X0 l1) (X1 l1) e E1 N0 N1 Hx H3 q0 Er) as (q & _ & _ & Eq & Eact). rewrite S2 in Eq. rewrite <- (Eact S2) in Ar. rewrite Eq, Ev.
      assert (Ci : inc = true \/ inc = false) by (clear; destruct inc; auto). destruct Ci as [Ei'|Ei']; rewrite Ei' in *; cbn [negb]; [exists 0%nat, (X0 l2), q|exists 1%nat, q, (X1 l2)]; auto. }
  destruct G as (a & x0 & x1 & Aa & M0 & M1 & Hv). assert (La : (a < length (iv_active iv))%nat) by (apply nth_error_Some; rewrite Aa; discriminate).
  destruct (L_Geo7.foreach_sub _ _ _ a H4 ltac:(apply in_seq; lia)) as (e3 & H5 & I3). clear H4. rewrite Aa, M0 in H5. cbn [bind] in H5. cbn [nth_error] in M1. rewrite M1 in H5. cbn [bind] in H5. set (jv := if vs then (order - 1)%nat else 0%nat).
  destruct (L_Geo7.foreach_sub _ _ _ jv H5 ltac:(apply in_seq; unfold jv; destruct vs; lia)) as (e4 & H6 & I4). clear H5. cbv zeta in H6. rewrite D2r, Nat.ltb_irrefl in H6. injection H6 as <-.
  assert (Ey : x0 + (x1 - x0) * node01 (o_cheb O) order jv = (if vs then X1 l2 else X0 l2)) by (unfold jv; clear - Hv Q0 Q1; destruct vs; rewrite ?Q0, ?Q1, ?Hv; ring). eexists _, _. apply I1, I2, I3, I4. left. rewrite Ey. reflexivity.
Qed.
End Corner.
