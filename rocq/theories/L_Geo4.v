(** Position of the points: the construction in the plane, or on a facet of a box of the space. *)
From Coq Require Import Reals List Lia Lra Permutation Sorted Arith ZArith.
From Verif Require Import M_General S_General S_Geo S_Mesh S_Roots L_Real L_BBox L_Point L_TensorNat L_Mesh L_Mesh5 L_Roots P_Roots L_General L_General2 L_General3 L_General4 L_General5 L_General6 L_General7 L_Geo1 L_Geo2 L_Geo3.
Import ListNotations.
Local Close Scope Z_scope. Local Close Scope nat_scope. Local Open Scope R_scope.

(** ** Halves *)
Lemma half_box_nth' (l : list R) ind x d : (ind < length l)%nat -> nth d (set_at l ind x) 0 = if (ind =? d)%nat then x else nth d l 0.
Proof. intros H. rewrite set_at_nth. destruct (ind =? d)%nat; [|reflexivity]. destruct (Nat.ltb_spec ind (length l)); [reflexivity|lia]. Qed.
Lemma half_len b d u : length (bmin (half b d u)) = length (bmin b) /\ length (bmax (half b d u)) = length (bmax b).
Proof. unfold half. destruct u; cbn [bmin bmax]; rewrite ?set_at_length; auto. Qed.
Lemma bisected_snoc n b c : bisected n b c -> forall d u, (d < length (bmin c))%nat -> bisected (S n) b (half c d u).
Proof. induction 1 as [b|n b e v c He _ IH]; intros d u Hd; [eapply bis_S; [exact Hd|constructor]|]. eapply bis_S; [exact He|]. apply IH. exact Hd. Qed.
Lemma half_nth b d u e : (d < length (bmin b))%nat -> length (bmax b) = length (bmin b) ->
  nth e (bmin (half b d u)) 0 = (if (u && (d =? e)%nat)%bool then midpoint b d else nth e (bmin b) 0) /\ nth e (bmax (half b d u)) 0 = (if (negb u && (d =? e)%nat)%bool then midpoint b d else nth e (bmax b) 0).
Proof. intros Hd E. unfold half, midpoint, lo, hi. destruct u; cbn [bmin bmax negb andb]; (split; [|]); try reflexivity; rewrite half_box_nth' by lia; reflexivity. Qed.
Lemma half_within b d u dom : within b dom -> (d < length (bmin b))%nat -> within (half b d u) dom.
Proof.
  intros (W1 & W2 & W3) Hd. destruct (half_len b d u) as [L1 L2]. split; [congruence|]. split; [congruence|]. intros e He. destruct (half_nth b d u e Hd ltac:(congruence)) as [-> ->]. specialize (W3 e He).
  destruct u; cbn [negb andb]; destruct (Nat.eqb_spec d e) as [->|]; unfold midpoint, lo, hi; lra.
Qed.
Lemma half_extent b d u e : (d < length (bmin b))%nat -> length (bmax b) = length (bmin b) -> extent (half b d u) e = if (d =? e)%nat then / 2 * extent b d else extent b e.
Proof. intros Hd E. unfold extent, hi, lo. destruct (half_nth b d u e Hd E) as [-> ->]. destruct u; cbn [negb andb]; destruct (Nat.eqb_spec d e) as [->|]; unfold midpoint, hi, lo; lra. Qed.
Lemma prune_1 {A} (u : A -> bool) al sg psi p b psi' c' : nth_error psi 0 = Some p -> prune u al sg psi 1 = Ret (b, psi', c') -> psi' = psi /\ (b = true -> c' = 1%nat \/ (c' = 0%nat /\ u p = true /\ consistent al sg p = true)).
Proof.
  intros Hp H. split; [eapply prune_one; [|exact H]; lia|]. intros ->. unfold prune in H. cbn [prune_loop Nat.ltb Nat.leb] in H. rewrite Hp in H. destruct (u p) eqn:Eu; [|injection H as _ <-; auto]. destruct (consistent al sg p) eqn:Ec; [|discriminate]. right.
  cbn [Nat.sub] in H. rewrite Hp in H. injection H as _ <-. auto.
Qed.
Lemma halt_first O free box psi p n pt : nth_error psi 0 = Some p -> ps_sign p = (-1)%Z -> halt_okay O free box psi (S n) 0 pt = Ret true -> o_phi O (restrict free box p pt) < 0.
Proof. intros Hp Hs H. cbn [halt_okay] in H. unfold psi_at in H. rewrite Hp in H. cbn [bind] in H. rewrite Hs in H. unfold Rleb in H. destruct (Rle_dec 0 (o_phi O (restrict free box p pt))) as [Hr|Hr]; [discriminate|lra]. Qed.

Section Plane.
Variables (O : oracles) (range order : nat) (dom : bbox).
Hypothesis HO : sound O range.
Hypothesis HX : exact O dom.
Hypothesis Hd1 : length (bmin dom) = range.
Hypothesis Hd2 : length (bmax dom) = range.
Hypothesis Hord : (2 <= order)%nat.
Variables (S : bool) (free : list bool) (psi : list psi_code) (p0 : psi_code) (L M : R).
Hypothesis Case : (range = 2%nat /\ free = repeat true 2) \/ (range = 3%nat /\ S = false /\ exists c, (c < 3)%nat /\ free = set_at (repeat true 3) c false).
Hypothesis Hp0 : nth_error psi 0 = Some p0.
Hypothesis Lpsi : length psi = n_facets range.
Hypothesis Sg0 : ps_sign p0 = (-1)%Z.
Hypothesis Ls : length (ps_side p0) = range.
Hypothesis HM : 1 <= M.
Hypothesis HMe : forall d, (d < range)%nat -> extent dom d <= M.
Hypothesis HL : 0 <= L.
Hypothesis HLM : L * M <= 1000.
Hypothesis Lip : lipschitz (o_phi O) L dom.

Definition centre (b : bbox) : list R := restrict free b p0 (box_centre b).
Definition goodx (x : list R) : Prop :=
  if S then Rabs (o_phi O x) <= accuracy M else o_phi O x <= accuracy M \/ exists B, bisected 16 dom B /\ on_face free B p0 x /\ o_phi O (centre B) < 0.
Definition goodb (b : bbox) : Prop := S = false /\ 2%nat = range /\ length (bmin b) = range /\ length (bmax b) = range /\ (forall d, (d < range)%nat -> lo b d <= hi b d) /\ forall x, in_box b x -> goodx x.
Record inv (k : nat) (b : bbox) : Prop := mk_inv {
  i_max : length (bmax b) = range; i_in : within b dom; i_bis : bisected (16 - k) dom b; i_ext : forall d, (d < range)%nat -> 2 ^ (k + 16) * default_tol < extent b d; i_k : (k <= 16)%nat }.

Lemma Lfree : length free = range.
Proof. destruct Case as [[-> ->]|(-> & _ & c & _ & ->)]; [reflexivity|rewrite set_at_length; reflexivity]. Qed.
Lemma Tfree : trues free = 2%nat.
Proof. destruct Case as [[_ ->]|(_ & _ & c & Hc & ->)]; [reflexivity|]. destruct c as [|[|[|c]]]; [reflexivity..|lia]. Qed.
Lemma range2 : (2 <= range)%nat.
Proof. destruct Case as [[-> _]|(-> & _)]; lia. Qed.
Lemma facets2 : (2 <= n_facets range)%nat.
Proof. destruct Case as [[-> _]|(-> & _)]; cbn; lia. Qed.
Lemma free_dflt d : (d < range)%nat -> nth d free true = nth d free false.
Proof. intros Hd. apply nth_indep. rewrite Lfree. exact Hd. Qed.
Lemma all_free : S = true \/ 2%nat = range -> forall d, (d < range)%nat -> nth d free true = true.
Proof. intros H d Hd. destruct Case as [[E ->]|(E & E2 & _)]; [|destruct H; [congruence|lia]]. rewrite E in Hd. destruct d as [|[|d]]; [reflexivity..|lia]. Qed.
Lemma len_of k b : inv k b -> length (bmin b) = range.
Proof. intros [_ (A & _) _ _ _]. congruence. Qed.
Lemma ext_pos k b : inv k b -> forall d, (d < range)%nat -> 2 ^ 16 * default_tol < extent b d.
Proof. intros [_ _ _ E _] d Hd. specialize (E d Hd). pose proof default_tol_pos. rewrite pow_add in E. assert (1 <= 2 ^ k) by (apply pow_R1_Rle; lra). assert (0 < 2 ^ 16 * default_tol) by (apply Rmult_lt_0_compat; [apply pow_lt; lra|lra]). nra. Qed.
Lemma ext_le k b d : inv k b -> (d < range)%nat -> extent b d <= M.
Proof. intros [_ (_ & _ & W) _ _ _] Hd. specialize (W d ltac:(lia)). specialize (HMe d Hd). unfold extent, lo, hi in *. lra. Qed.
Lemma inv_half k b d u : inv (Datatypes.S k) b -> (d < range)%nat -> inv k (half b d u).
Proof.
  intros I Hd. assert (Ln := len_of _ _ I). destruct I as [I1 I2 I3 I4 I5]. destruct (half_len b d u) as [L1 L2]. split.
  - congruence.
  - apply half_within; [exact I2|lia].
  - replace (16 - k)%nat with (Datatypes.S (16 - Datatypes.S k)) by lia. apply bisected_snoc; [exact I3|lia].
  - intros e He. rewrite half_extent by lia. specialize (I4 e He) as Ie. specialize (I4 d Hd). pose proof default_tol_pos. cbn [Nat.add pow] in I4, Ie. assert (0 < 2 ^ (k + 16)) by (apply pow_lt; lra). destruct (d =? e)%nat; [lra|nra].
  - lia.
Qed.
Lemma acc_eq : accuracy M = 1000 * (M * default_tol).
Proof. unfold accuracy, default_tol, eps. ring. Qed.
Lemma uniform_good b : within b dom -> snd (o_value O free b p0) = true -> consistent (fun p => fst (o_value O free b p)) ps_sign p0 = true -> forall x, on_face free b p0 x -> o_phi O x <= accuracy M.
Proof.
  intros Hb Hu Hc x Hx. assert (H := e_value O dom HX free b p0 x Hb Hu Hx). unfold consistent in Hc. rewrite Sg0 in Hc. cbn [Z.leb Z.compare] in Hc. rewrite Bool.andb_false_r, Bool.andb_true_r in Hc. cbn [orb] in Hc. apply Rleb_true in Hc.
  assert (0 <= accuracy M). { rewrite acc_eq. pose proof default_tol_pos. nra. } destruct (Rle_or_lt (o_phi O x) 0) as [G|G]; [lra|]. nra.
Qed.
Lemma goodb_point b t : goodb b -> In t (tp_all (tp_const range order)) -> goodx (cell_point (o_cheb O) order b t).
Proof.
  intros (_ & _ & L1 & L2 & Hle & G) Ht. apply G. apply is_index_all in Ht as [Lt Ft]. split; [unfold cell_point; rewrite map3_length; rewrite ?lengths_len; lia|]. intros d Hd. unfold cell_point in Hd. rewrite map3_length in Hd by (rewrite ?lengths_len; lia).
  rewrite cell_point_nth by lia. assert (Hn : 0 <= node01 (o_cheb O) order (nth d t 0%nat) <= 1) by (apply (node_in O range order HO Hord); rewrite Forall_forall in Ft; apply Ft, nth_In; lia). specialize (Hle d ltac:(lia)). unfold lo, hi in *. split; nra.
Qed.
Lemma all_face b x : 2%nat = range -> in_box b x -> length (bmin b) = range -> on_face free b p0 x.
Proof. intros E Hx Hb. split; [exact Hx|]. intros d Hd Hf. destruct Hx as [Lx _]. rewrite (all_free (or_intror E)) in Hf by lia. discriminate. Qed.
(** The whole face. *)
Lemma full_geo k b evs : S = false -> inv k b -> full_events O 2 range order free psi b = Ret evs -> (forall x, on_face free b p0 x -> goodx x) -> Forall (ev_ok goodx goodb) evs.
Proof.
  intros ES I E G. assert (Ln := len_of _ _ I). assert (Hle : forall d, (d < range)%nat -> lo b d <= hi b d) by (intros d Hd; pose proof (ext_pos _ _ I d Hd); pose proof default_tol_pos; assert (0 < 2 ^ 16) by (apply pow_lt; lra); unfold extent in *; nra).
  unfold full_events in E. destruct (Nat.eqb_spec 2 range) as [E2|N2].
  - injection E as <-. constructor; [|constructor]. split; [exact ES|]. split; [exact E2|]. split; [exact Ln|]. split; [apply I|]. split; [exact Hle|]. intros x Hx. apply G. apply all_face; assumption.
  - destruct Case as [[Er _]|(Er & _ & c & Hc & Ef)]; [lia|]. assert (Efx : fixed_dirs free = [c]) by (rewrite Ef; destruct c as [|[|[|c]]]; [reflexivity..|lia]). rewrite Efx in E. unfold psi_at in E. rewrite Hp0 in E. cbn [bind] in E. injection E as <-.
    apply Forall_forall. intros e He. apply in_map_iff in He as (t & <- & Ht). cbn [ev_ok]. apply G. change [order; order] with (tp_const 2 order) in Ht. apply is_index_all in Ht as [Lt Ft]. rewrite Forall_forall in Ft.
    set (others := map (fun d => negb (d =? c)%nat) (seq 0 range)). set (base := set_at (o_point O) c (side_of b (nth c (ps_side p0) 0%nat) c)). assert (Lb : length base = range) by (unfold base; rewrite set_at_length; apply (s_point O range HO)).
    assert (Lo : length others = range) by (unfold others; rewrite map_length, seq_length; reflexivity).
    assert (Eo : forall d, (d < range)%nat -> nth d others false = nth d free true /\ (nth d free true = true <-> d <> c)).
    { intros d Hd. unfold others. rewrite Er in *. rewrite Ef. destruct c as [|[|[|c]]]; [..|lia]; destruct d as [|[|[|d]]]; try lia; cbn; (split; [reflexivity|split; [discriminate || lia || reflexivity|intros; congruence || reflexivity]]). }
    assert (To : trues others = length t). { rewrite Lt. unfold others. rewrite Er. destruct c as [|[|[|c]]]; [reflexivity..|lia]. }
    assert (V : forall d, (d < range)%nat -> if nth d free true then exists a, In a t /\ nth d (scatter (interpolate_coord O order b) 0 others t base) 0 = interpolate_coord O order b d a else nth d (scatter (interpolate_coord O order b) 0 others t base) 0 = side_of b (nth d (ps_side p0) 0%nat) d).
    { intros d Hd. pose proof (scatter_nth (interpolate_coord O order b) 0 others 0 t base d ltac:(lia) ltac:(lia) ltac:(lia)) as X. destruct (Eo d Hd) as [E1 E2]. rewrite E1 in X. destruct (nth d free true); [exact X|]. rewrite X. assert (d = c) by (destruct (Nat.eq_dec d c); [assumption|exfalso; apply E2 in n; discriminate]). subst d.
      unfold base. rewrite set_at_nth, Nat.eqb_refl. destruct (Nat.ltb_spec c (length (o_point O))) as [_|B]; [reflexivity|rewrite (s_point O range HO) in B; lia]. }
    assert (Lsc : length (scatter (interpolate_coord O order b) 0 others t base) = range) by (rewrite scatter_length; lia).
    split.
    + split; [lia|]. intros d Hd. rewrite Lsc in Hd. specialize (V d Hd). specialize (Hle d Hd). destruct (nth d free true).
      * destruct V as (a & Ha & ->). unfold interpolate_coord, extent, lo, hi in *. pose proof (node_in O range order HO Hord a (Ft a Ha)). split; nra.
      * rewrite V. clear - Hle. unfold side_of, lo, hi in *. destruct (nth d (ps_side p0) 0%nat =? 0)%nat; lra.
    + intros d Hd Hf. rewrite Lsc in Hd. specialize (V d Hd). rewrite Hf in V. exact V.
Qed.
Lemma centre_eq b : length (bmin b) = range -> map (midpoint b) (seq 0 range) = box_centre b.
Proof. intros E. unfold box_centre. rewrite E. reflexivity. Qed.

(** The two objects of the box. *)
Lemma reduced_geo k b dir new nc refs' evs : inv k b -> reduce_loop O S free psi b (height_direction O range free b p0) 1 0 (repeat (o_psi O) (n_facets range)) 0 = Ret (Some (dir, new, nc)) ->
  construct O range order 1 n_max_subdivs false [mk_obj 2 S free psi 1 b dir] [[]] (set_at free dir false) new nc b = Ret (evs, refs') -> Forall (ev_ok goodx goodb) evs /\ tl refs' = [].
Proof.
  intros I R E. assert (Ln := len_of _ _ I). assert (Tp := default_tol_pos). assert (F2 := facets2). assert (Hr := range2). assert (Lf := Lfree).
  destruct (height_direction O range free b p0) as [h|] eqn:Eh; [|rewrite reduce_none in R by lia; discriminate]. apply height_ok in Eh as [Hh Hhf].
  cbn [reduce_loop] in R. unfold psi_at in R. rewrite Hp0 in R. cbn [bind] in R. destruct (snd (o_grad O free b p0 h)) eqn:Eg; [|discriminate]. rewrite repeat_length in R. destruct (Nat.ltb_spec (0 + 1) (n_facets range)); [|lia]. cbn [bind] in R. injection R as <- <- <-.
  set (inc := Rltb 0 (fst (fst (o_grad O free b p0 h)))) in *. rewrite Sg0 in E. set (sg := o_signs O S inc (-1)) in *.
  set (pa := mk_psi (set_at (ps_side p0) h 0%nat) (fst sg)) in *. set (pb := mk_psi (set_at (ps_side p0) h 1%nat) (snd sg)) in *. set (new := set_at (set_at (repeat (o_psi O) (n_facets range)) 0 pa) (0 + 1) pb) in *.
  assert (Ea : nth_error new 0 = Some pa /\ nth_error new 1 = Some pb /\ length new = n_facets range).
  { unfold new. destruct (n_facets range) as [|[|n]]; [lia|lia|]. cbn. rewrite repeat_length. auto. }
  destruct Ea as (Ea & Eb & Lnew). set (l2 := mk_obj 2 S free psi 1 b h) in *.
  rewrite construct_1 in E. assert (T := trues_filter (set_at free h false)). assert (T2 := trues_set free h Hhf). rewrite Tfree in T2. rewrite set_at_length, Lf in T. replace (trues (set_at free h false)) with 1%nat in T by lia.
  destruct (filter (fun d => nth d (set_at free h false) false) (seq 0 range)) as [|j [|? ?]] eqn:Ef; try discriminate. cbn [rev app] in E. set (l1 := mk_obj 1 false (set_at free h false) new 2 b j) in *. cbv zeta in E.
  apply bind_inv in E as (refs & E1 & E). apply bind_inv in E as (evs0 & E2 & E). injection E as <- <-. cbn [starts app].
  assert (Fj : forall d, (d < range)%nat -> nth d (set_at free h false) true = true <-> d = j).
  { intros d Hd. rewrite (nth_indep _ true false) by (rewrite set_at_length; lia). split.
    - intros H0. assert (In d [j]) as [<-|[]] by (rewrite <- Ef; apply filter_In; split; [apply in_seq; lia|exact H0]). reflexivity.
    - intros ->. assert (In j [j]) as H0 by (left; reflexivity). rewrite <- Ef in H0. apply filter_In in H0. apply H0. }
  assert (Hj : (j < range)%nat). { assert (In j [j]) as H0 by (left; reflexivity). rewrite <- Ef in H0. apply filter_In in H0 as [H0 _]. apply in_seq in H0. lia. }
  assert (Hpos := ext_pos k b I). assert (P16 : 1 <= 2 ^ 16) by (apply pow_R1_Rle; lra).
  assert (W1 : wf_obj range l1). { split; cbn; try rewrite set_at_length; try lia; try (apply I); try discriminate. specialize (Hpos j Hj). nra. }
  assert (W2 : wf_obj range l2). { split; cbn; try lia; try (apply I). specialize (Hpos h Hh). nra. }
  assert (t1 : compute_tolerance l1 <= M * default_tol). { unfold compute_tolerance, tol_update. cbn [l_box l_dir l1]. apply Rmax_lub; [nra|]. assert (X := ext_le k b j I Hj). nra. }
  assert (t2 : default_tol <= compute_tolerance l2 <= M * default_tol). { unfold compute_tolerance, tol_update. cbn [l_box l_dir l2]. split; [apply Rmax_l|]. apply Rmax_lub; [nra|]. assert (X := ext_le k b h I Hh). nra. }
  assert (Big : 2 * compute_tolerance l2 < X1 l2 - X0 l2).
  { unfold compute_tolerance, tol_update, X1, X0. cbn [l_box l_dir l2]. fold (extent b h). specialize (Hpos h Hh). assert (65536 * default_tol < extent b h) by (replace 65536 with (2 ^ 16) by ring; exact Hpos).
    assert (default_tol <= / 4). { unfold default_tol, eps. assert (40 <= 2 ^ 52) by (apply Rle_trans with (2 ^ 6); [lra|apply Rle_pow; [lra|lia]]). assert (0 < / 2 ^ 52) by (apply Rinv_0_lt_compat; lra). assert (2 ^ 52 * / 2 ^ 52 = 1) by (apply Rinv_r; lra). nra. }
    unfold Rmax; destruct (Rle_dec _ _); nra. }
  assert (F2h : nth h free true = true) by (rewrite free_dflt by exact Hh; exact Hhf).
  assert (Hmono : forall pt s t, okpt range l2 pt -> inside l2 s -> inside l2 t -> s < t -> if inc then o_phi O (line l2 p0 pt s) < o_phi O (line l2 p0 pt t) else o_phi O (line l2 p0 pt t) < o_phi O (line l2 p0 pt s)).
  { intros pt s t Hp Hs Ht Hst. assert (Q : forall u, inside l2 u -> on_face free b p0 (line l2 p0 pt u)) by (intros u Hu; apply (line_face range dom Hd1 l2 W2 F2h (i_in _ _ I)); assumption).
    assert (G := e_grad O dom HX free b p0 h _ s t (i_in _ _ I) Hhf Eg (Q s Hs) (Q t Ht) Hst). fold (line l2 p0 pt t) in G. change (set_at (set_psi_bounds l2 p0 pt) h s) with (line l2 p0 pt s) in G. change (set_at (set_psi_bounds l2 p0 pt) h t) with (line l2 p0 pt t) in G.
    unfold inc. unfold Rltb. destruct (Rlt_dec 0 (fst (fst (o_grad O free b p0 h)))); nra. }
  assert (PE := planar_events O range order dom HO HX Hd1 Hord l1 l2 p0 pa pb inc L W1 W2 eq_refl ltac:(discriminate) eq_refl eq_refl eq_refl eq_refl eq_refl).
  specialize (PE ltac:(apply (Fj j Hj); reflexivity) F2h (fun d Hd H0 => proj1 (Fj d Hd) H0) Ea Eb Hp0 eq_refl eq_refl Ls Sg0).
  assert (Sgs : (ps_sign pa, ps_sign pb) = (if l_S l2 then (if inc then (-1, 1) else (1, -1)) else (if inc then (-1, 0) else (0, -1)))%Z).
  { cbn [ps_sign pa pb l_S l2]. rewrite <- surjective_pairing. unfold sg. destruct S; [apply (e_signs_levelset O dom HX)|apply (e_signs_region O dom HX)]. }
  specialize (PE Sgs (i_in _ _ I) Hmono Big HL Lip).
  assert (HLd : L * (M * default_tol) <= 1000 * default_tol) by nra.
  specialize (PE ltac:(nra) ltac:(nra) Hr (all_free) _ _ E1 E2).
  split; [|destruct (refs_inv O range l1 l2 eq_refl refs E1) as (iv1 & rs & _ & -> & r & -> & _); reflexivity].
  apply Forall_forall. intros e He. destruct (PE e He) as (t & p & x & -> & X & y & HXi & Hy & -> & B). cbn [ev_ok]. unfold goodx. rewrite acc_eq. cbn [l_S l2] in B. destruct S; [lra|left; lra].
Qed.

Lemma clear_ok : Forall (ev_ok goodx goodb) (starts []).
Proof. cbn [starts]. constructor; [exact Logic.I|constructor]. Qed.
(** The construction. *)
Lemma plane_geo : forall k b evs refs', inv k b -> construct O range order 2 k S [] [] free psi 1 b = Ret (evs, refs') -> Forall (ev_ok goodx goodb) evs /\ refs' = [].
Proof.
  assert (CS : S = true \/ S = false) by (clear; destruct S; auto). assert (CO := clear_ok).
  assert (FU : S = false -> forall k b es, inv k b -> full_events O 2 range order free psi b = Ret es -> (forall x, on_face free b p0 x -> goodx x) -> Forall (ev_ok goodx goodb) (Clear :: es)).
  { intros ES k b es I E G. constructor; [exact Logic.I|]. eapply full_geo; eassumption. }
  induction k as [|k IH]; intros b evs refs' I E; assert (Ln := len_of _ _ I); rewrite construct_S in E; apply bind_inv in E as ([[ok psi'] c] & Ep & E); destruct (prune_1 _ _ _ _ _ _ _ _ Hp0 Ep) as [-> Hc];
    (destruct ok; cbn [negb] in E; [|injection E as <- <-; split; [exact CO|reflexivity]]); (destruct (Hc eq_refl) as [->|(-> & Hu & Hcc)]; cbn [Nat.eqb] in E;
    [|destruct CS as [ES|ES]; rewrite ES in E; [injection E as <- <-; split; [exact CO|reflexivity]|]; cbn [whole] in E; apply bind_inv in E as ([es rs] & E1 & E); injection E as <- <-; apply bind_inv in E1 as (es' & E1 & E2); injection E2 as <- <-; cbn [fst snd app starts]; split; [|reflexivity];
     apply (FU ES _ b _ I E1); intros x Hx; unfold goodx; rewrite ES; left; apply (uniform_good b (i_in _ _ I) Hu Hcc x Hx)]);
    unfold psi_at in E; rewrite Hp0 in E; cbn [bind] in E; apply bind_inv in E as (red & R & E); (destruct red as [[[dir new] nc]|];
    [apply bind_inv in E as ([es rs] & E1 & E); injection E as <- <-; cbn [fst snd app starts]; destruct (reduced_geo _ _ _ _ _ _ _ I R E1); split; [constructor; [exact Logic.I|assumption]|assumption]|]).
  - apply bind_inv in E as (okay & Eh & E). destruct okay; [|injection E as <- <-; split; [exact CO|reflexivity]]. destruct CS as [ES|ES]; rewrite ES in E; [apply assert_inv in E as [_ E]; injection E as <- <-; split; [exact CO|reflexivity]|].
    cbn [whole] in E. apply bind_inv in E as ([es rs] & E1 & E). injection E as <- <-. apply bind_inv in E1 as (es' & E1 & E2). injection E2 as <- <-. cbn [fst snd app starts]. split; [|reflexivity].
    apply (FU ES _ b _ I E1). intros x Hx. unfold goodx. rewrite ES. right. exists b. split; [apply (i_bis _ _ I)|]. split; [exact Hx|]. assert (F2 := facets2). remember (n_facets range) as nf eqn:Enf in Eh. destruct nf as [|n]; [lia|]. apply (halt_first O free b psi p0 n _ Hp0 Sg0) in Eh. rewrite centre_eq in Eh by exact Ln. exact Eh.
  - destruct (split_ok range free b Lfree) as (ind & Ei & Hir & Hif); [rewrite Tfree; lia|intros d Hd; pose proof (ext_pos _ _ I d Hd); pose proof default_tol_pos; assert (0 < 2 ^ 16) by (apply pow_lt; lra); nra|]. rewrite Ei in E.
    apply bind_inv in E as ([e1 r1] & E1 & E). destruct (IH _ _ _ (inv_half k b ind false I Hir) E1) as [F1 ->]. cbn [snd] in E. apply bind_inv in E as ([e2 r2] & E2 & E). destruct (IH _ _ _ (inv_half k b ind true I Hir) E2) as [F2 ->]. injection E as <- <-. cbn [fst snd app starts] in *.
    split; [|reflexivity]. constructor; [exact Logic.I|]. apply Forall_app. split; [exact F1|constructor; [exact Logic.I|exact F2]].
Qed.
End Plane.
