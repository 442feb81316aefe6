(** Position of the points: the lines of one object. *)
From Coq Require Import Reals List Lia Lra Permutation Sorted Arith ZArith.
From Verif Require Import M_General S_General S_Geo S_Mesh S_Roots L_Real L_BBox L_Point L_TensorNat L_Mesh L_Roots P_Roots L_General L_General2 L_General3 L_General4 L_Geo1.
Import ListNotations.
Local Close Scope Z_scope. Local Close Scope nat_scope. Local Open Scope R_scope.

Lemma in_dom b dom x : within b dom -> in_box b x -> in_box dom x.
Proof. intros (W1 & W2 & W3) [H1 H2]. split; [congruence|]. intros d Hd. specialize (H2 d Hd). specialize (W3 d ltac:(lia)). lra. Qed.
Lemma sorted_gap : forall ls i x0 x1, StronglySorted Rle ls -> nth_error ls i = Some x0 -> nth_error ls (S i) = Some x1 -> x0 <= x1 /\ forall y, In y ls -> y <= x0 \/ x1 <= y.
Proof.
  induction ls as [|a ls IH]; intros i x0 x1 HS H0 H1; [destruct i; discriminate|]. inversion HS as [|? ? HS' HF]; subst. rewrite Forall_forall in HF. destruct i as [|i].
  - cbn [nth_error] in *. injection H0 as ->. destruct ls as [|b ls]; [discriminate|]. injection H1 as ->. split; [apply HF; left; reflexivity|]. inversion HS' as [|? ? _ HF']; subst. rewrite Forall_forall in HF'.
    intros y [<-|[<-|Hy]]; [left; lra|right; lra|right; apply HF'; exact Hy].
  - cbn [nth_error] in H0, H1. destruct (IH i x0 x1 HS' H0 H1) as [H2 H3]. split; [exact H2|]. intros y [<-|Hy]; [left; apply HF; eapply nth_error_In; exact H0|apply H3; exact Hy].
Qed.
(** Between two consecutive adjusted roots a function keeps its sign up to L tol. *)
Lemma gap_bound (g : R -> R) L tol x0 x1 t : 0 <= L -> 0 <= tol -> x0 <= t <= x1 -> (forall r, x0 <= r <= x1 -> Rabs (g t - g r) <= L * Rabs (t - r)) ->
  (exists r r', g r = 0 /\ Rmin (/ 2 * (x0 + x1)) t <= r <= Rmax (/ 2 * (x0 + x1)) t /\ Rabs (r - r') <= tol /\ (r' <= x0 \/ x1 <= r')) -> Rabs (g t) <= L * tol.
Proof.
  intros HL Ht Hx Lip (r & r' & Hr & Hm & Hn & Hs).
  assert (B : x0 <= r <= x1 /\ Rabs (t - r) <= tol).
  { unfold Rmin, Rmax in Hm. destruct (Rle_dec (/ 2 * (x0 + x1)) t); revert Hn; unfold Rabs; destruct (Rcase_abs (r - r')), (Rcase_abs (t - r)); intros Hn; lra. }
  destruct B as [B1 B2]. specialize (Lip r B1). rewrite Hr, Rminus_0_r in Lip. apply Rle_trans with (L * Rabs (t - r)); [exact Lip|]. apply Rmult_le_compat_l; assumption.
Qed.

Section Object.
Variables (O : oracles) (range : nat) (dom : bbox).
Hypothesis HO : sound O range.
Hypothesis HX : exact O dom.
Hypothesis Hdom : length (bmin dom) = range.
Variable l : obj.
Hypothesis W : wf_obj range l.
Hypothesis Hfree : nth (l_dir l) (l_free l) true = true.
Hypothesis Hw : within (l_box l) dom.
Notation k := (l_dir l).
Notation line := (line l).
Notation tol := (compute_tolerance l).
Definition okpt (pt : list R) : Prop := length pt = range /\ forall d, (d < range)%nat -> d <> k -> nth d (l_free l) true = true -> lo (l_box l) d <= nth d pt 0 <= hi (l_box l) d.

Lemma line_face p pt t : okpt pt -> inside l t -> on_face (l_free l) (l_box l) p (line p pt t).
Proof.
  intros [Lp Hp] Ht. assert (Ll := line_length range l W p pt t Lp). split.
  - split; [rewrite Ll, (wf_min _ _ W); reflexivity|]. intros d Hd. rewrite Ll in Hd. rewrite (line_nth range l W Hfree) by assumption. destruct (Nat.eqb_spec k d) as [<-|E]; [exact Ht|]. destruct (nth d (l_free l) true) eqn:Ef; [apply Hp; auto|].
    destruct Hw as (_ & _ & Hw3). specialize (Hw3 d ltac:(lia)). unfold side_of, lo, hi. destruct (_ =? 0)%nat; lra.
  - intros d Hd Hf. rewrite Ll in Hd. rewrite (line_nth range l W Hfree) by assumption. destruct (Nat.eqb_spec k d) as [<-|E]; [congruence|]. rewrite Hf. reflexivity.
Qed.
Lemma line_dom p pt t : okpt pt -> inside l t -> in_box dom (line p pt t).
Proof. intros Hp Ht. eapply in_dom; [exact Hw|]. apply (line_face p pt t Hp Ht). Qed.
Lemma ends_inside : inside l (X0 l) /\ inside l (X1 l).
Proof. pose proof (x_lt range l W). unfold inside. lra. Qed.
Lemma roots_geo pt i rs : okpt pt -> (i < l_count l)%nat -> compute_roots O l pt i = Ret rs ->
  exists p, nth_error (l_psi l) i = Some p /\ NoDup rs /\ (forall r, In r rs -> inside l r /\ o_phi O (line p pt r) = 0) /\
    forall s t, inside l s -> inside l t -> o_phi O (line p pt s) <= 0 <= o_phi O (line p pt t) -> o_phi O (line p pt s) <> o_phi O (line p pt t) -> exists r, In r rs /\ Rmin s t <= r <= Rmax s t.
Proof.
  intros Hp Hi E. destruct (compute_roots_ok O range HO l pt i W Hi) as (rs' & E' & F). rewrite E in E'. injection E' as <-. rewrite Forall_forall in F.
  unfold compute_roots, psi_at in E. destruct (nth_error (l_psi l) i) as [p|] eqn:En; [|discriminate]. cbn [bind] in E. injection E as E. exists p. split; [reflexivity|]. destruct ends_inside as [I0 I1].
  assert (D0 := line_dom p pt _ Hp I0). assert (D1 := line_dom p pt _ Hp I1). subst rs. split; [apply (e_nodup O dom HX)|]. split.
  - intros r Hr. split; [apply F; exact Hr|]. eapply (e_zero O dom HX); [exact D0|exact D1|exact Hr].
  - intros s t Hs Ht H1 H2. eapply (e_cross O dom HX); eassumption.
Qed.

(** ** The intervals of a line: constant sign up to L tol. *)
Lemma base_bound L pt iv i x0 x1 j p : 0 <= L -> lipschitz (o_phi O) L dom -> okpt pt -> compute_all_intervals O l pt = Ret iv ->
  nth_error (ri_roots (iv_ri iv)) i = Some x0 -> nth_error (ri_roots (iv_ri iv)) (S i) = Some x1 -> (j < l_count l)%nat -> nth_error (l_psi l) j = Some p -> forall t, x0 <= t <= x1 ->
  (o_phi O (line p pt (/ 2 * (x0 + x1))) <= 0 -> o_phi O (line p pt t) <= L * tol) /\ (0 <= o_phi O (line p pt (/ 2 * (x0 + x1))) -> - (L * tol) <= o_phi O (line p pt t)).
Proof.
  intros HL Lip Hp E N0 N1 Hj Ep t Ht. destruct (all_geo O range HO l W Hfree pt iv (proj1 Hp) E) as (f & mid & s & Hf & Er & HS & PS & MV & _). rewrite Er in N0, N1. cbn [ent ri_roots] in N0, N1.
  destruct (sorted_gap _ _ _ _ HS N0 N1) as [H01 Hgap]. pose proof (tol_ok range l W) as T. set (m := / 2 * (x0 + x1)). set (g := fun u => o_phi O (line p pt u)).
  assert (Ins : forall y, In y (map fst (full_list l mid)) -> inside l y).
  { destruct (all_ok O range HO l pt W (proj1 Hp)) as (iv' & E' & [G _]). rewrite E in E'. injection E' as <-. apply (good_inside range) in G; [|exact W]. rewrite Forall_forall in G. rewrite Er in G. exact G. }
  assert (I0 := Ins _ (nth_error_In _ _ N0)). assert (I1 := Ins _ (nth_error_In _ _ N1)).
  assert (In_ : forall u, x0 <= u <= x1 -> inside l u) by (unfold inside in *; intros; lra).
  assert (Hm : x0 <= m <= x1) by (unfold m; lra).
  assert (Lg : forall r, x0 <= r <= x1 -> Rabs (g t - g r) <= L * Rabs (t - r)) by (intros r Hr; apply Lip; apply line_dom; auto).
  destruct (roots_geo pt j (f j) Hp Hj (Hf j Hj)) as (p' & Ep' & _ & Hz & Hc). rewrite Ep in Ep'. injection Ep' as <-.
  assert (K : (exists r, In r (f j) /\ Rmin m t <= r <= Rmax m t) -> Rabs (g t) <= L * tol).
  { intros (r & Hr & Hb). apply (gap_bound g L tol x0 x1 t HL (proj1 T) Ht Lg). destruct (Hz r Hr) as [_ Hzr].
    assert (Hin : In (r, Z.of_nat j) s). { apply (Permutation_in _ (Permutation_sym PS)). unfold tagged. apply in_flat_map. exists j. split; [apply in_seq; lia|]. apply in_map_iff. exists r. auto. }
    destruct (forall2_in _ _ _ _ MV Hin) as ([r' z] & Hr' & [_ Hm']). cbn [fst snd] in Hm'. exists r, r'. split; [exact Hzr|]. split; [exact Hb|]. split; [exact Hm'|]. apply Hgap. unfold full_list. cbn [map]. right. rewrite map_app. apply in_or_app. left. apply in_map_iff. exists (r', z). auto. }
  assert (Hsym : forall r, Rmin t m <= r <= Rmax t m -> Rmin m t <= r <= Rmax m t) by (intros r; rewrite Rmin_comm, Rmax_comm; auto).
  assert (0 <= L * tol) by (apply Rmult_le_pos; lra). fold (g m) (g t). split; intros Hs.
  - destruct (Rle_or_lt (g t) 0) as [H0|H0]; [lra|]. apply Rle_trans with (Rabs (g t)); [apply Rle_abs|]. apply K. apply Hc; auto; unfold g in *; lra.
  - destruct (Rle_or_lt 0 (g t)) as [H0|H0]; [lra|]. assert (Rabs (g t) <= L * tol); [|revert H1; unfold Rabs; destruct (Rcase_abs (g t)); lra]. apply K. destruct (Hc t m) as (r & Hr & Hb); auto; unfold g in *; try lra. exists r. auto.
Qed.

(** ** The highest object: one function, strictly monotone. *)
Variables (p0 : psi_code) (inc : bool).
Hypothesis Hcount : l_count l = 1%nat.
Hypothesis Hp0 : nth_error (l_psi l) 0 = Some p0.
Hypothesis Hsign : ps_sign p0 = (-1)%Z.
Notation f := (fun pt t => o_phi O (line p0 pt t)).
Hypothesis Hmono : forall pt s t, okpt pt -> inside l s -> inside l t -> s < t -> if inc then f pt s < f pt t else f pt t < f pt s.
Hypothesis Hbig : 2 * tol < X1 l - X0 l.

Lemma mono_inj pt s t : okpt pt -> inside l s -> inside l t -> f pt s = f pt t -> s = t.
Proof.
  intros Hp Hs Ht E. destruct (Rtotal_order s t) as [H|[H|H]]; [|exact H|].
  - assert (M := Hmono pt s t Hp Hs Ht H). destruct inc; lra.
  - assert (M := Hmono pt t s Hp Ht Hs H). destruct inc; lra.
Qed.
Definition no_cross (pt : list R) : Prop := 0 < f pt (X0 l) /\ 0 < f pt (X1 l) \/ f pt (X0 l) < 0 /\ f pt (X1 l) < 0.
Lemma top_roots pt rs : okpt pt -> compute_roots O l pt 0 = Ret rs -> rs = [] /\ no_cross pt \/ exists r, rs = [r] /\ inside l r /\ f pt r = 0.
Proof.
  intros Hp E. destruct (roots_geo pt 0 rs Hp ltac:(lia) E) as (p & Ep & Nd & Hz & Hc). rewrite Hp0 in Ep. injection Ep as <-. destruct ends_inside as [I0 I1]. destruct rs as [|r [|r' rs]].
  - left. split; [reflexivity|]. assert (Ne : f pt (X0 l) <> f pt (X1 l)) by (intros E'; apply (mono_inj pt _ _ Hp I0 I1) in E'; pose proof (x_lt range l W); lra). unfold no_cross.
    destruct (Rle_or_lt (f pt (X0 l)) 0) as [A|A]; destruct (Rle_or_lt (f pt (X1 l)) 0) as [B|B].
    + destruct (Req_dec (f pt (X0 l)) 0) as [Z0|Z0]; [destruct (Hc _ _ I1 I0) as (r & [] & _); [lra|congruence]|]. destruct (Req_dec (f pt (X1 l)) 0) as [Z1|Z1]; [destruct (Hc _ _ I0 I1) as (r & [] & _); [lra|congruence]|]. right. lra.
    + destruct (Hc _ _ I0 I1) as (r & [] & _); [lra|congruence].
    + destruct (Hc _ _ I1 I0) as (r & [] & _); [lra|congruence].
    + left. lra.
  - right. exists r. split; [reflexivity|]. apply Hz. left. reflexivity.
  - exfalso. destruct (Hz r (or_introl eq_refl)) as [Ir Zr]. destruct (Hz r' (or_intror (or_introl eq_refl))) as [Ir' Zr']. assert (r = r') by (apply (mono_inj pt); auto; congruence). subst. inversion Nd; subst. apply H1. left. reflexivity.
Qed.
Lemma sign_neg v : sign_ok (-1) v -> v <= 0.
Proof. intros [H _]. destruct (Rle_or_lt v 0); [assumption|]. specialize (H H0). lia. Qed.
Lemma top_all pt iv : okpt pt -> compute_all_intervals O l pt = Ret iv ->
  (iv_ri iv = ent (full_list l []) /\ no_cross pt /\ (l_S l = false -> forall i, nth_error (iv_active iv) i = Some true -> f pt (X0 l) < 0 /\ f pt (X1 l) < 0)) \/
  (exists r r', iv_ri iv = ent (full_list l [(r', 0%Z)]) /\ inside l r /\ f pt r = 0 /\ (l_S l = false -> forall i, nth_error (iv_active iv) i = Some true -> i = if inc then 0%nat else 1%nat)).
Proof.
  intros Hp E. destruct (all_geo O range HO l W Hfree pt iv (proj1 Hp) E) as (g & mid & s & Hg & Er & HS & PS & MV & Va & _ & Ha). rewrite Hcount in *. unfold tagged in PS, Va. cbn [seq flat_map] in PS, Va. rewrite app_nil_r in PS, Va. change (Z.of_nat 0) with 0%Z in PS, Va.
  destruct ends_inside as [I0 I1]. pose proof (x_lt range l W) as Hx. pose proof (tol_ok range l W) as T.
  assert (Act : l_S l = false -> forall i, nth_error (iv_active iv) i = Some true -> exists x0 x1, nth_error (map fst (full_list l mid)) i = Some x0 /\ nth_error (map fst (full_list l mid)) (S i) = Some x1 /\ tol < Rabs (x1 - x0) /\ f pt (/ 2 * (x0 + x1)) <= 0).
  { intros ES i Hi. rewrite ES in Ha. destruct (active_true O range l W Hfree _ pt pt _ i (same_refl range l pt (proj1 Hp)) Ha Hi) as (x0 & x1 & N0 & N1 & Ht & Hs). exists x0, x1. split; [exact N0|]. split; [exact N1|]. split; [exact Ht|].
    destruct (Hs 0%nat ltac:(lia)) as (p & Ep & So). rewrite Hp0 in Ep. injection Ep as <-. rewrite Hsign in So. apply sign_neg. exact So. }
  destruct (top_roots pt (g 0%nat) Hp (Hg 0%nat ltac:(lia))) as [[Eg Nc]|(r & Eg & Ir & Zr)]; rewrite Eg in PS, Va; cbn [map] in PS, Va.
  - left. apply Permutation_sym, Permutation_nil in PS. subst s. inversion MV; subst mid. split; [exact Er|]. split; [exact Nc|]. intros ES i Hi. destruct (Act ES i Hi) as (x0 & x1 & N0 & N1 & _ & Hm). destruct i as [|[|i]]; cbn in N0, N1; try discriminate; try (destruct i; discriminate).
    injection N0 as <-. injection N1 as <-. destruct Nc as [[A B]|N]; [exfalso|exact N]. assert (Im : inside l (/ 2 * (X0 l + X1 l))) by (unfold inside; lra).
    assert (M := Hmono pt (X0 l) _ Hp I0 Im ltac:(lra)). assert (M' := Hmono pt _ (X1 l) Hp Im I1 ltac:(lra)). destruct inc; lra.
  - right. apply Permutation_sym, Permutation_length_1_inv in PS. subst s. inversion MV as [|? [r' z] ? ? [Hz Hn] MV']; subst. inversion MV'; subst. cbn [fst snd] in *. subst z. exists r, r'. split; [exact Er|]. split; [exact Ir|]. split; [exact Zr|].
    inversion Va as [|? ? V _]; subst. cbn [fst In] in V. intros ES i Hi. destruct (Act ES i Hi) as (x0 & x1 & N0 & N1 & Ht & Hm).
    assert (Hr' : r' = X0 l \/ r' = X1 l \/ r' = r) by (destruct V as [V|[V|[V|[]]]]; auto). unfold inside in Ir.
    destruct i as [|[|i]]; cbn in N0, N1; try discriminate; try (destruct i; discriminate); injection N0 as <-; injection N1 as <-.
    + destruct inc eqn:Ei; [reflexivity|exfalso]. assert (Hlt : / 2 * (X0 l + r') < r /\ X0 l <= / 2 * (X0 l + r')).
      { destruct Hr' as [-> | [-> | ->]]; revert Ht Hn; unfold Rabs; repeat destruct (Rcase_abs _); intros; lra. }
      assert (Im : inside l (/ 2 * (X0 l + r'))) by (unfold inside; lra). assert (M := Hmono pt _ r Hp Im Ir ltac:(lra)). cbv beta iota in M. lra.
    + destruct inc eqn:Ei; [exfalso|reflexivity]. assert (Hlt : r < / 2 * (r' + X1 l) /\ / 2 * (r' + X1 l) <= X1 l).
      { destruct Hr' as [-> | [-> | ->]]; revert Ht Hn; unfold Rabs; repeat destruct (Rcase_abs _); intros; lra. }
      assert (Im : inside l (/ 2 * (r' + X1 l))) by (unfold inside; lra). assert (M := Hmono pt r _ Hp Ir Im ltac:(lra)). cbv beta iota in M. lra.
Qed.

(** ** The root at another point. *)
Lemma end_roots_ok v0 v1 : forall n t, 0 <= t -> let e := end_roots (S n) t v0 v1 in
  (fst e = true -> Rabs v0 <= t * 10 ^ n) /\ (snd e = true -> Rabs v1 <= t * 10 ^ n) /\ (fst e = false -> snd e = false -> t * 10 ^ n < Rabs v0 /\ t * 10 ^ n < Rabs v1).
Proof.
  induction n as [|n IH]; intros t Ht e; unfold e; clear e.
  - cbn [end_roots pow fst snd]. rewrite Rmult_1_r. destruct (is_zero t v0) eqn:E0, (is_zero t v1) eqn:E1; cbn [orb fst snd]; unfold is_zero in *; repeat match goal with H : Rleb _ _ = true |- _ => apply Rleb_true in H | H : Rleb _ _ = false |- _ => apply Rleb_false in H end;
      repeat split; intros; try discriminate; assumption.
  - change (end_roots (S (S n)) t v0 v1) with (let r := (is_zero t v0, is_zero t v1) in if (fst r || snd r)%bool then r else end_roots (S n) (t * 10) v0 v1). cbv zeta. cbn [fst snd].
    assert (Hp : t <= t * 10 ^ S n). { rewrite <- (Rmult_1_r t) at 1. apply Rmult_le_compat_l; [exact Ht|]. apply pow_R1_Rle. lra. }
    destruct (is_zero t v0) eqn:E0, (is_zero t v1) eqn:E1; cbn [orb fst snd]; unfold is_zero in *; repeat match goal with H : Rleb _ _ = true |- _ => apply Rleb_true in H end; try (repeat split; intros; try discriminate; lra).
    replace (t * 10 ^ S n) with (t * 10 * 10 ^ n) by (cbn [pow]; ring). apply (IH (t * 10)). lra.
Qed.
Definition root_kind (pt : list R) (q : R) : Prop :=
  f pt q = 0 \/ ((q = X0 l \/ q = X1 l) /\ Rabs (f pt q) <= 1000 * tol) \/
  (q = X0 l /\ 1000 * tol < Rabs (f pt (X0 l)) /\ 1000 * tol < Rabs (f pt (X1 l)) /\ (no_cross pt \/ exists r, inside l r /\ f pt r = 0 /\ (Rabs (r - X0 l) <= tol \/ Rabs (r - X1 l) <= tol))).
Definition settled (q : R) : Prop := q = X0 l \/ q = X1 l \/ tol < Rabs (q - X0 l) /\ tol < Rabs (q - X1 l).
Lemma ref_roots r' : get_ref_intervals_roots (ent (full_list l [(r', 0%Z)])) (Z.of_nat 0) = Ret [X0 l].
Proof. reflexivity. Qed.
Lemma filter1 {A} (g : A -> bool) x : filter g [x] = if g x then [x] else [].
Proof. reflexivity. Qed.
Lemma similar_geo ref r' pt : okpt pt -> iv_ri ref = ent (full_list l [(r', 0%Z)]) -> exists q, compute_similar_roots O l ref 0 pt = Ret [q] /\ inside l q /\ settled q /\ root_kind pt q.
Proof.
  intros Hp E. unfold compute_similar_roots. rewrite E, ref_roots. cbn [bind]. destruct (compute_roots_ok O range HO l pt 0 W ltac:(lia)) as (rs & Er & _). rewrite Er. cbn [bind]. fold (X0 l) (X1 l).
  destruct ends_inside as [I0 I1]. pose proof (tol_ok range l W) as T. set (sel := fun r => negb (tol_equal tol r (X0 l) || tol_equal tol r (X1 l))).
  assert (Cases : (exists r, filter sel rs = [r] /\ f pt r = 0 /\ inside l r /\ settled r) \/ (filter sel rs = [] /\ (no_cross pt \/ exists r, inside l r /\ f pt r = 0 /\ (Rabs (r - X0 l) <= tol \/ Rabs (r - X1 l) <= tol)))).
  { destruct (top_roots pt rs Hp Er) as [[-> Nc]|(r & -> & Ir & Zr)]; [right; auto|]. rewrite filter1. unfold sel. destruct (tol_equal tol r (X0 l)) eqn:E0; cbn [orb negb]; [right; split; [reflexivity|]; right; exists r; apply tol_equal_iff in E0; auto|].
    destruct (tol_equal tol r (X1 l)) eqn:E1; cbn [negb]; [right; split; [reflexivity|]; right; exists r; apply tol_equal_iff in E1; auto|]. left. exists r. apply tol_equal_niff in E0, E1. split; [reflexivity|]. split; [exact Zr|]. split; [exact Ir|]. right. right. auto. }
  fold sel. destruct Cases as [(r & -> & Zr & Ir & Sr)|[-> Hno]].
  - cbn [length Nat.eqb]. exists r. split; [reflexivity|]. split; [exact Ir|]. split; [exact Sr|left; exact Zr].
  - cbn [length Nat.eqb Nat.ltb Nat.leb]. unfold psi_at. rewrite Hp0. cbn [bind]. fold (line p0 pt (X0 l)). fold (line p0 pt (X1 l)).
    pose proof (end_roots_ok (f pt (X0 l)) (f pt (X1 l)) 3 tol (proj1 T)) as He. cbv zeta in He. replace (tol * 10 ^ 3) with (1000 * tol) in He by ring.
    destruct (end_roots 4 tol (f pt (X0 l)) (f pt (X1 l))) as [b0 b1] eqn:Ee. cbn [fst snd] in *. destruct He as (H0 & H1 & H2).
    assert (Q0 : b0 = true -> root_kind pt (X0 l)) by (intros B; right; left; split; [left; reflexivity|apply H0; exact B]).
    assert (Q1 : b1 = true -> root_kind pt (X1 l)) by (intros B; right; left; split; [right; reflexivity|apply H1; exact B]).
    assert (S0 : settled (X0 l)) by (left; reflexivity). assert (S1 : settled (X1 l)) by (right; left; reflexivity).
    destruct b0, b1; cbn [xorb andb]; cbn.
    + match goal with |- context [if ?b then X1 l else X0 l] => destruct b end; eexists; (split; [reflexivity|]); auto.
    + exists (X0 l). auto.
    + exists (X1 l). auto.
    + exists (X0 l). split; [reflexivity|]. split; [exact I0|]. split; [exact S0|]. right. right. destruct (H2 eq_refl eq_refl). auto.
Qed.
Lemma settled_move q q' : settled q -> q' = X0 l \/ q' = X1 l \/ q' = q -> Rabs (q - q') <= tol -> q' = q.
Proof. intros S [-> | [-> | ->]] Hn; [| |reflexivity]; pose proof (x_lt range l W); pose proof (tol_ok range l W); destruct S as [-> | [-> | [A B]]]; try reflexivity; try lra; revert Hn; unfold Rabs; destruct (Rcase_abs _); lra. Qed.
Lemma similar_settled ref r' pt iv : okpt pt -> l_dim l <> 1%nat -> iv_ri ref = ent (full_list l [(r', 0%Z)]) -> compute_similar_intervals O l ref pt = Ret iv ->
  exists q, inside l q /\ root_kind pt q /\ ri_roots (iv_ri iv) = (if l_S l then [q] else [X0 l; q; X1 l]) /\ (l_S l = false -> iv_active iv = iv_active ref) /\ settled q.
Proof.
  intros Hp Hd E H. destruct (similar_geo ref r' pt Hp E) as (q & Eq & Iq & Sq & Kq). exists q. split; [exact Iq|]. split; [exact Kq|].
  unfold compute_similar_intervals in H. rewrite E in H. cbn [ent ri_roots full_list map app length Nat.eqb] in H. rewrite Hcount in H. cbn [seq foldM] in H. rewrite Eq in H. cbn [bind map] in H. change (Z.of_nat 0) with 0%Z in H. fold (X0 l) (X1 l) in H.
  change ri_empty with (ent []) in H. rewrite add_ent in H by (repeat constructor; cbn [snd]; lia). cbn [bind app] in H. pose proof (tol_ok range l W) as T.
  assert (M : mids l [(q, 0%Z)]) by (constructor; [split; [exact Iq|cbn [snd]; rewrite Hcount; lia]|constructor]).
  destruct (l_S l).
  - cbn [bind] in H. split; [|split; [discriminate|exact Sq]]. destruct (adjust_eq (o_sort O) tol (X0 l) (X1 l) [(q, 0%Z)] (s_sort O range HO) T) as (s & fi & la & Es & Hf & Hl & Ea).
    { apply mids_in in M. exact M. }
    cbv zeta in Ea. assert (Hs : s = [(q, 0%Z)]). { rewrite Es. apply Permutation_length_1_inv. symmetry. apply (s_sort O range HO). }
    rewrite Hs in Ea. cbn [newl filter nonmark snd Z.eqb negb] in Ea. rewrite (proj2 Hf), (proj2 Hl) in Ea by (intros [A|[]]; discriminate). cbn [app map fst snd] in Ea. change (ent [(q, 0%Z)]) with (mk_ri [q] [0%Z] [(q, 0%Z)]) in H. cbn [map fst snd] in Ea. rewrite Ea in H. cbn [bind] in H. injection H as <-. cbn [iv_ri ri_roots].
    f_equal. unfold nv. destruct (tol_equal tol q (X0 l)) eqn:E0; [apply settled_move; [exact Sq|auto|apply tol_equal_iff; exact E0]|]. destruct (tol_equal tol q (X1 l)) eqn:E1; [apply settled_move; [exact Sq|auto|apply tol_equal_iff; exact E1]|reflexivity].
  - rewrite add_ent in H by (repeat constructor; cbn [snd]; lia). cbn [bind] in H. unfold assert_ in H. cbn [ent ri_roots app map fst length Nat.eqb bind] in H. change (mk_ri ?a ?b ?c) with (ent c) in H. 
    destruct (adjust_geo O range HO l W Hfree [(X0 l, (-1)%Z); (X1 l, (-1)%Z)] [(q, 0%Z)] [(q, 0%Z); (X0 l, (-1)%Z); (X1 l, (-1)%Z)] M (Permutation_refl _)) as (mid & s & Ea & _ & PS & MV & Va).
    { cbn [app]. change ([(q, 0%Z); (X0 l, (-1)%Z); (X1 l, (-1)%Z)]) with ([(q, 0%Z)] ++ [(X0 l, (-1)%Z); (X1 l, (-1)%Z)]). apply (Permutation_app_comm [(q, 0%Z)]). }
    rewrite Ea in H. cbn [bind] in H. injection H as <-. cbn [iv_ri iv_active]. split; [|split; [reflexivity|exact Sq]]. apply Permutation_sym, Permutation_length_1_inv in PS. subst s. inversion MV as [|? [q' z] ? ? [Hz Hn] MV']; subst. inversion MV'; subst. inversion Va as [|? ? V _]; subst. cbn [fst snd In map] in *.
    cbn [ent ri_roots full_list map app fst]. f_equal. f_equal. apply settled_move; [exact Sq| |exact Hn]. destruct V as [V|[V|[V|[]]]]; auto.
Qed.
Lemma similar_intervals ref r' pt iv : okpt pt -> l_dim l <> 1%nat -> iv_ri ref = ent (full_list l [(r', 0%Z)]) -> compute_similar_intervals O l ref pt = Ret iv ->
  exists q, inside l q /\ root_kind pt q /\ ri_roots (iv_ri iv) = (if l_S l then [q] else [X0 l; q; X1 l]) /\ (l_S l = false -> iv_active iv = iv_active ref).
Proof. intros H1 H2 H3 H4. destruct (similar_settled ref r' pt iv H1 H2 H3 H4) as (q & A & B & C & D & _). exists q. auto. Qed.
Lemma similar_none ref pt iv : l_S l = false -> iv_ri ref = ent (full_list l []) -> compute_similar_intervals O l ref pt = Ret iv -> iv = ref.
Proof. intros ES E H. unfold compute_similar_intervals in H. rewrite E, ES in H. cbn in H. injection H as <-. reflexivity. Qed.
Lemma similar_none_S ref pt iv : l_S l = true -> iv_ri ref = ent (full_list l []) -> compute_similar_intervals O l ref pt = Ret iv -> ri_roots (iv_ri iv) = [].
Proof. intros ES E H. unfold compute_similar_intervals in H. rewrite E, ES in H. cbn in H. injection H as <-. reflexivity. Qed.
End Object.
