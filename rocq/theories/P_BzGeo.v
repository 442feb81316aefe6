(** Theorems on the position of the points of a Bezier reparameterization in the plane (C105, C106). *)
From Coq Require Import Reals List Lia Lra Permutation Sorted Arith ZArith.
From Verif Require Import M_BzReparam S_BzReparam S_BzGeo S_General S_Mesh S_Roots L_Real L_BBox L_Point L_TensorNat L_Mesh L_Mesh3 L_Roots L_General L_General2 L_General3 L_General4 L_Reparam3 L_Geo1 L_BzReparam L_BzReparam2 L_BzReparam3 P_Scale P_BzReparam L_BzGeo1 L_BzGeo2 L_BzGeo3 L_BzGeo4.
Import ListNotations.
Local Close Scope Z_scope. Local Close Scope nat_scope. Local Open Scope R_scope.

Lemma bezier_run {P} (Z : bz_oracles P) phi grad fresh lev p m n0 domain m' : bz_sound Z -> valid (mesh_dim 2 lev) (m_order m) (m_points m) (m_conn m) (m_wires m) -> Forall (fun x => length x = 2%nat) (m_points m) ->
  length (m_conn m) = (n0 * m_order m ^ mesh_dim 2 lev)%nat -> proper_box 2 domain -> reparam_bezier Z phi grad fresh 2 lev p m domain = Ret m' ->
  exists evs k np np', bz_events Z lev 2 (m_order m) [p] = Ret evs /\ bezier_added 2 lev phi domain m m' n0 k np np' /\
    forall Q : list R -> Prop, Forall (ev_ok Q (fun _ => False)) evs -> Forall Q np.
Proof.
  intros HZ V F Hn Hb E. assert (Ev : exists evs, bz_events Z lev 2 (m_order m) [p] = Ret evs).
  { unfold reparam_bezier in E. destruct (M_Mesh.num_cells _ m); try discriminate. cbn [bind] in E. destruct (bz_events Z lev 2 (m_order m) [p]) as [evs| | |]; try discriminate. eauto. }
  destruct Ev as [evs Ee]. assert (Ha : adds (z_cheb Z) (mesh_dim 2 lev) (m_order m) (L_General3.final 2 (box01 2) Vol) True evs).
  { unfold bz_events in Ee. destruct (bz_build Z true 2 (bz_kept Z 2 [p] [])) as [[[k bot] lvs]| | |] eqn:Eb; try discriminate. cbn [bind fst snd] in Ee.
    pose proof (build_events Z HZ lev 2 (m_order m) _ k bot lvs (proj1 V) (or_introl eq_refl) Eb) as O. rewrite Ee in O. exact O. }
  destruct (rest_ok Z phi grad fresh 2 lev p m n0 domain evs HZ (or_introl eq_refl) V F Hn Hb Ee Ha) as (m'' & k & np & np' & m1 & ni0 & E' & V' & B & R1 & Ep & _). rewrite E in E'. injection E' as <-.
  exists evs, k, np, np'. split; [exact Ee|]. split; [exact B|]. intros Q HQ. unfold run_events in R1. apply bind_inv in R1 as ([m2 mp] & R2 & R3). cbn [fst] in R3. injection R3 as ->.
  destruct (run_points (z_cheb Z) (mesh_dim 2 lev) (m_order m) Q (fun _ => False) (fun b t (Hb : False) _ => match Hb with end) evs m [] m1 mp eq_refl HQ R2) as (_ & np2 & Ep2 & Fp). rewrite Ep in Ep2. apply app_inv_head in Ep2. subst np2. exact Fp.
Qed.

(** C105, partial: the level set of a polynomial in the plane.  If Algoim finds the zeros along lines, and the polynomial is cut well by the polynomials of its base, then whenever
    reparam_Bezier returns, the polynomial nearly vanishes at all the new points (in the unit box, where they are computed).  Missing: the space; polynomials that are not generic. *)
Theorem C105_bezier_levelset_partial : forall {P} (Z : bz_oracles P) phi grad fresh p k L m n0 domain m', bz_sound Z -> algoim_exact Z p k -> generic Z p k -> slope Z p k L ->
  valid 1 (m_order m) (m_points m) (m_conn m) (m_wires m) -> Forall (fun x => length x = 2%nat) (m_points m) -> length (m_conn m) = (n0 * m_order m ^ 1)%nat -> proper_box 2 domain ->
  reparam_bezier Z phi grad fresh 2 true p m domain = Ret m' ->
  exists n np np', bezier_added 2 true phi domain m m' n0 n np np' /\ Forall (fun x => Rabs (z_eval Z p (rev x)) <= 2 * L * (10 * / 2 ^ 52)) np.
Proof.
  intros P Z phi grad fresh p k L m n0 domain m' HZ HA HG HL V F Hn Hb E. destruct (bezier_run Z phi grad fresh true p m n0 domain m' HZ V F Hn Hb E) as (evs & n & np & np' & Ee & B & Q).
  exists n, np, np'. split; [exact B|]. apply Q. exact (plane_events Z HZ p k L true (m_order m) (proj1 V) HA HG HL evs (or_introl eq_refl) Ee).
Qed.
Print Assumptions C105_bezier_levelset_partial.

(** C106, partial: the region where a polynomial is negative, in the plane: under the same assumptions the polynomial is nearly non-positive at all the new points.  A polynomial
    for which Algoim finds no zero in the box must not be positive at the centre (C94). *)
Theorem C106_bezier_region_partial : forall {P} (Z : bz_oracles P) phi grad fresh p k L m n0 domain m', bz_sound Z -> algoim_exact Z p k -> generic Z p k -> slope Z p k L ->
  (z_empty Z p = true -> z_eval Z p [/ 2; / 2] <= 0) ->
  valid 2 (m_order m) (m_points m) (m_conn m) (m_wires m) -> Forall (fun x => length x = 2%nat) (m_points m) -> length (m_conn m) = (n0 * m_order m ^ 2)%nat -> proper_box 2 domain ->
  reparam_bezier Z phi grad fresh 2 false p m domain = Ret m' ->
  exists n np np', bezier_added 2 false phi domain m m' n0 n np np' /\ Forall (fun x => z_eval Z p (rev x) <= 2 * L * (10 * / 2 ^ 52)) np.
Proof.
  intros P Z phi grad fresh p k L m n0 domain m' HZ HA HG HL Hc V F Hn Hb E. destruct (bezier_run Z phi grad fresh false p m n0 domain m' HZ V F Hn Hb E) as (evs & n & np & np' & Ee & B & Q).
  exists n, np, np'. split; [exact B|]. destruct (z_empty Z p) eqn:Ez; [|apply Q; exact (plane_events Z HZ p k L false (m_order m) (proj1 V) HA HG HL evs (or_intror Ez) Ee)].
  destruct B as (mu & ni & wi & (_ & _ & _ & _ & _ & _ & _ & Fi & _) & _). eapply Forall_impl; [|exact Fi]. intros x [Lx Hx]. cbn [box01 bmin bmax repeat length] in Lx, Hx.
  assert (z_eval Z p (rev x) <= 0).
  { apply (ae_empty _ _ _ HA Ez (Hc eq_refl)). split; [rewrite rev_length; exact Lx|]. apply Forall_rev. apply Forall_forall. intros r Hr. destruct (In_nth _ _ 0 Hr) as (d & Hd & <-). specialize (Hx d Hd). destruct d as [|[|d]]; [exact Hx|exact Hx|lia]. }
  destruct HL as [L0 _]. pose proof tiny_pos. assert (0 <= 2 * L * tiny) by nra. fold tiny. lra.
Qed.
Print Assumptions C106_bezier_region_partial.

(** Example: the parabola x = 1/4 + (y - 1/2)^2 in the unit square (directions in Algoim's order: first y, then x).  The base is cut at its tip, x = 1/4, and where it leaves the square, x = 1/2. *)
Definition inside_unit (r : R) : bool := (Rleb 0 r && Rleb r 1)%bool.
Definition par : bz_oracles nat :=
  mk_bz nat (fun _ _ _ => true)
    (fun q pt _ => filter inside_unit (match q with O => let x := nth 0 pt 0 in if Rltb (/ 4) x then [/ 2 - sqrt (x - / 4); / 2 + sqrt (x - / 4)] else if Rltb x (/ 4) then [] else [/ 2] | S O => [/ 4] | _ => [/ 2] end))
    (fun _ _ => true) (fun q v => match q with O => (nth 0 v 0 - / 2) * (nth 0 v 0 - / 2) - (nth 1 v 0 - / 4) | S O => nth 0 v 0 - / 4 | _ => nth 0 v 0 - / 2 end) (fun _ => false)
    (fun dim _ => if (dim =? 0)%nat then None else Some 0%nat) (fun _ _ => false) (fun _ _ => [1%nat; 2%nat]) L_Roots.rsort_ins (fun i n => INR i / INR (n - 1)).
Lemma inside_iff r : inside_unit r = true <-> unit_interval r.
Proof. unfold inside_unit, unit_interval. rewrite Bool.andb_true_iff, !Rleb_true. reflexivity. Qed.
Lemma par_sound : bz_sound par.
Proof.
  constructor; cbn [par z_roots z_sort z_cheb z_choose].
  - intros q pt _. apply Forall_forall. intros r Hr. apply filter_In in Hr as [_ H]. apply inside_iff in H. exact H.
  - exact L_Roots.rsort_ins_ok.
  - exact (bs_cheb _ (graph_sound (fun _ => 0) 0 true)).
  - intros [|dim] phi k H; [discriminate|]. injection H as <-. lia.
Qed.
Lemma par_value x y : height_value par 0%nat 0 x y = (y - / 2) * (y - / 2) - (x - / 4).
Proof. reflexivity. Qed.
Definition half_width (x : R) : R := sqrt (x - / 4).
Lemma width_ok x : / 4 <= x -> 0 <= half_width x /\ half_width x * half_width x = x - / 4.
Proof. intros H. unfold half_width. split; [apply sqrt_pos|apply sqrt_sqrt; lra]. Qed.
Lemma par_zero x y : / 4 <= x -> (height_value par 0%nat 0 x y = 0 <-> y = / 2 - half_width x \/ y = / 2 + half_width x).
Proof.
  intros H. destruct (width_ok x H) as [S0 S1]. rewrite par_value, <- S1. split.
  - intros E. assert (E' : (y - / 2 - half_width x) * (y - / 2 + half_width x) = 0) by lra. apply Rmult_integral in E' as [E'|E']; [right|left]; lra.
  - intros [-> | ->]; ring.
Qed.
Lemma par_width x : / 4 <= x <= / 2 -> 0 <= half_width x <= / 2.
Proof. intros H. destruct (width_ok x ltac:(lra)) as [S0 S1]. split; [exact S0|]. destruct (Rle_dec (half_width x) (/ 2)); [assumption|]. nra. Qed.
Lemma par_exact : algoim_exact par 0%nat 0.
Proof.
  constructor.
  - reflexivity.
  - intros x Hx. unfold unit_interval in Hx. unfold finds_zeros. cbn [par z_roots z_line z_mask nth]. change (z_eval par 0%nat (over 0 x ?y)) with (height_value par 0%nat 0 x y). split.
    + apply NoDup_filter. destruct (Rltb (/ 4) x) eqn:E; [|destruct (Rltb x (/ 4)); [constructor|constructor; [intros []|constructor]]]. apply Rltb_true in E. fold (half_width x). destruct (width_ok x ltac:(lra)) as [S0 S1].
      constructor; [|constructor; [intros []|constructor]]. intros [H|[]]. assert (half_width x = 0) by lra. rewrite H0 in S1. lra.
    + intros y Hy. change (z_eval par 0%nat (over 0 x y)) with (height_value par 0%nat 0 x y). rewrite filter_In, inside_iff. destruct (Rltb (/ 4) x) eqn:E.
      * apply Rltb_true in E. rewrite (par_zero x y) by lra. cbn [In]. fold (half_width x). intuition.
      * apply Rltb_false in E. destruct (Rltb x (/ 4)) eqn:E'.
        -- apply Rltb_true in E'. split; [intros (_ & [[] _] & _)|]. rewrite par_value. intros H. pose proof (Rle_0_sqr (y - / 2)). unfold Rsqr in *. lra.
        -- apply Rltb_false in E'. assert (x = / 4) by lra. subst x. rewrite par_value. cbn [In]. split.
           ++ intros (_ & [[<-|[]] _] & _). ring.
           ++ intros H. assert (Es : (y - / 2) * (y - / 2) = 0) by lra. assert (y = / 2) by (apply Rmult_integral in Es; lra). subst y. intuition.
  - intros q [<-|[<-|[]]]; unfold finds_zeros; cbn [par z_roots z_line z_mask z_eval nth]; (split; [apply NoDup_filter; constructor; [intros []|constructor]|]); intros y Hy; rewrite filter_In, inside_iff; cbn [In]; (split; [intros (_ & [[<-|[]] _] & _); lra|intros H]);
      [assert (y = / 4) by lra|assert (y = / 2) by lra]; subst y; intuition.
  - discriminate.
Qed.
Lemma par_cut x : cut par 0%nat 0 x -> x = 0 \/ x = / 4 \/ x = / 2 \/ x = 1.
Proof. intros [H|[H|(_ & q & Hq & H)]]; [auto|auto|]. cbn [par z_elim] in Hq. destruct Hq as [<-|[<-|[]]]; cbn [par z_eval nth] in H; [right; left|right; right; left]; lra. Qed.
Lemma cut_quarter : cut par 0%nat 0 (/ 4).
Proof. right. right. split; [unfold unit_interval; lra|]. exists 1%nat. split; [left; reflexivity|]. cbn. lra. Qed.
Lemma cut_half : cut par 0%nat 0 (/ 2).
Proof. right. right. split; [unfold unit_interval; lra|]. exists 2%nat. split; [right; left; reflexivity|]. cbn. lra. Qed.
Lemma nothing_near x vs e : vs = [] -> end_fine (height_value par 0%nat 0) x vs e (1 - e).
Proof. intros -> v []. Qed.
Lemma sq_le y : unit_interval y -> (y - / 2) * (y - / 2) <= / 4.
Proof. unfold unit_interval. intros. nra. Qed.
Lemma outside_layers a b s : ((a = 0 /\ b = / 4 /\ s = true) \/ (a = / 2 /\ b = 1 /\ s = false)) ->
  layered (height_value par 0%nat 0) a b [] [s] /\ separated [] (/ 2 * (a + b)) /\ forall x, a <= x <= b -> orderly (height_value par 0%nat 0) [] x.
Proof.
  intros H. pose proof tiny_pos. pose proof tiny_small. split; [constructor|split].
  - reflexivity.
  - intros x y _ [].
  - intros x _. cbn. constructor; [constructor; constructor|constructor; [lra|constructor]].
  - intros x _. cbn. constructor; [constructor; constructor|constructor; [lra|constructor]].
  - intros x y Hx Hy Ez. exfalso. rewrite par_value in Ez. pose proof (sq_le y Hy). pose proof (Rle_0_sqr (y - / 2)). unfold Rsqr in *. intuition lra.
  - intros x y j Hx Hj u Hu. cbn in Hj. assert (j = 0%nat) by lia. subst j. cbn in Hu. pose proof (sq_le y Hu). pose proof (Rle_0_sqr (y - / 2)). unfold Rsqr in *. cbn [nth]. rewrite par_value. destruct H as [(-> & -> & ->)|(-> & -> & ->)]; lra.
  - cbn. constructor; [constructor; constructor|constructor; [lra|constructor]].
  - intros x Hx. destruct H as [(-> & -> & ->)|(-> & -> & ->)].
    + destruct (Req_dec x (/ 4)) as [->|Ne].
      * right. rewrite !par_value. split; [cases_abs; lra|]. split; [cases_abs; lra|]. intros zs _ Hz E. cbn in E. assert (Hh : In (/ 2) zs) by (apply Hz; split; [unfold away; lra|rewrite par_value; ring]). destruct zs; [exact Hh|discriminate].
      * left. split; [|split; [|split; [|split]]]; try (intros; cbn in *; lia); try solve [intros v []]. intros y _ Ez. rewrite par_value in Ez. pose proof (Rle_0_sqr (y - / 2)). unfold Rsqr in *. lra.
    + left. split; [|split; [|split; [|split]]]; try (intros; cbn in *; lia); try solve [intros v []]. intros y [A B] Ez. rewrite par_value in Ez. exfalso. assert ((y - / 2) * (y - / 2) < / 4) by nra. lra.
Qed.
Definition lower (x : R) : R := / 2 - half_width x.
Definition upper (x : R) : R := / 2 + half_width x.
Lemma inside_layers : layered (height_value par 0%nat 0) (/ 4) (/ 2) [lower; upper] [true; false; true] /\ separated [lower; upper] (/ 2 * (/ 4 + / 2)) /\
  forall x, / 4 <= x <= / 2 -> orderly (height_value par 0%nat 0) [lower; upper] x.
Proof.
  pose proof tiny_pos as T0. pose proof tiny_small as T1. split; [constructor|split].
  - reflexivity.
  - intros x y Hx [<-|[<-|[]]]; apply par_zero; (lra || auto).
  - intros x Hx. pose proof (par_width x Hx). unfold lower, upper. cbn. repeat (constructor; [|repeat (constructor; [lra|]); constructor]). constructor.
  - intros x Hx. pose proof (par_width x ltac:(lra)). destruct (width_ok x ltac:(lra)) as [S0 S1]. assert (0 < half_width x < / 2) by (split; nra). unfold lower, upper. cbn. repeat (constructor; [|repeat (constructor; [lra|]); constructor]). constructor.
  - intros x y Hx Hy Ez. apply par_zero in Ez; [|lra]. destruct Ez as [-> | ->]; [exists lower|exists upper]; cbn; auto.
  - intros x y j Hx Hj u Hu. destruct (width_ok x ltac:(lra)) as [S0 S1]. pose proof (par_width x Hx). rewrite par_value, <- S1. unfold u, lower, upper in Hu. cbn in Hj. destruct j as [|[|[|j]]]; [| | |lia]; cbn in Hu |- *; nra.
  - unfold separated. cbn [map app]. destruct (width_ok (/ 2 * (/ 4 + / 2)) ltac:(lra)) as [S0 S1]. assert (/ 4 < half_width (/ 2 * (/ 4 + / 2)) < 3 / 8) by (split; nra). assert (tiny < / 16) by (unfold tiny; simpl; lra). unfold lower, upper. repeat (constructor; [|repeat (constructor; [lra|]); constructor]). constructor.
  - intros x Hx. destruct (width_ok x ltac:(lra)) as [S0 S1]. pose proof (par_width x Hx) as W. destruct (Req_dec x (/ 4)) as [->|Ne].
    + right. rewrite !par_value. split; [cases_abs; lra|]. split; [cases_abs; lra|]. intros zs ND Hz E. assert (All : forall z, In z zs -> z = / 2) by (intros z Hi; apply Hz in Hi as [_ Hi]; rewrite par_value in Hi; assert (Es : (z - / 2) * (z - / 2) = 0) by lra; apply Rmult_integral in Es; lra).
      destruct zs as [|z1 [|z2 zs]]; try discriminate. inversion ND as [|? ? N1 _]; subst. apply N1. left. rewrite (All z2), (All z1); cbn; auto.
    + assert (P0 : 0 < half_width x) by nra. left. cbn [map length]. unfold lower, upper. set (h := half_width x) in *. clearbody h. split; [|split; [|split; [|split]]].
      * intros y _ Ez. rewrite par_value, <- S1 in Ez. assert (E' : (y - / 2 - h) * (y - / 2 + h) = 0) by lra. cbn [In]. apply Rmult_integral in E' as [E'|E']; [right; left|left]; lra.
      * intros i j Hij _. assert (i = 0%nat /\ j = 1%nat) as [-> ->] by lia. cbn [nth]. lra.
      * intros i j Hij. assert (i = 0%nat /\ j = 1%nat) as [-> ->] by lia. cbn [nth]. lra.
      * intros v Hv [_ Hn]. assert (v = / 2 - h) by (destruct Hv as [<-|[<-|[]]]; [reflexivity|exfalso; cases_abs; lra]). subst v. assert (/ 2 - h <= tiny) by (cases_abs; lra). rewrite !par_value, <- S1. split; [cases_abs; nra|]. intros _. exists (/ 2 + h). split; [cbn; auto|]. split; [unfold unit_interval; lra|cases_abs; lra].
      * intros v Hv [_ Hn]. assert (v = / 2 + h) by (destruct Hv as [<-|[<-|[]]]; [exfalso; cases_abs; lra|reflexivity]). subst v. assert (/ 2 - h <= tiny) by (cases_abs; lra). rewrite !par_value, <- S1. split; [cases_abs; nra|]. intros _. exists (/ 2 - h). split; [cbn; auto|]. split; [unfold unit_interval; lra|cases_abs; lra].
Qed.
Lemma par_generic : generic par 0%nat 0.
Proof.
  assert (T8 : tiny < / 8) by (unfold tiny; simpl; lra). constructor.
  - intros x x' C C'. destruct (par_cut x C) as [->|[->|[->| ->]]]; destruct (par_cut x' C') as [->|[->|[->| ->]]]; try (left; reflexivity); right; clear C C'; cases_abs; lra.
  - intros a b Ca Cb Hab Hno. pose proof (Hno _ cut_quarter). pose proof (Hno _ cut_half).
    destruct (par_cut a Ca) as [->|[->|[->| ->]]]; destruct (par_cut b Cb) as [->|[->|[->| ->]]]; try (exfalso; lra).
    + exists [], [true]. apply outside_layers. left. auto.
    + exists [lower; upper], [true; false; true]. apply inside_layers.
    + exists [], [false]. apply outside_layers. right. auto.
Qed.
Lemma par_slope : slope par 0%nat 0 1.
Proof.
  split; [lra|]. intros x y x' y' _ Hy _ Hy'. unfold unit_interval in *. rewrite !par_value. replace ((y - / 2) * (y - / 2) - (x - / 4) - ((y' - / 2) * (y' - / 2) - (x' - / 4))) with ((y - y') * (y + y' - 1) + - (x - x')) by field.
  eapply Rle_trans; [apply Rabs_triang|]. rewrite Rabs_Ropp, Rabs_mult. assert (Rabs (y + y' - 1) <= 1) by (cases_abs; lra). pose proof (Rabs_pos (y - y')). nra.
Qed.
(** The hypotheses of C105 and C106 are met, and the reparameterizations exist. *)
Example parabola : bz_sound par /\ algoim_exact par 0%nat 0 /\ generic par 0%nat 0 /\ slope par 0%nat 0 1 /\ z_empty par 0%nat = false /\ proper_box 2 sq /\
  forall phi grad fresh lev, exists m', reparam_bezier par phi grad fresh 2 lev 0%nat m00 sq = Ret m'.
Proof.
  assert (Pb : proper_box 2 sq) by (split; [reflexivity|]; split; [reflexivity|]; intros [|[|d]] Hd; cbn; try lra; lia).
  split; [exact par_sound|]. split; [exact par_exact|]. split; [exact par_generic|]. split; [exact par_slope|]. split; [reflexivity|]. split; [exact Pb|]. intros phi grad fresh lev.
  apply (C96_bezier_returns_partial par phi grad fresh 2 lev 0%nat m00 0 sq); [exact par_sound| |left; reflexivity|apply m00_valid|constructor|reflexivity|exact Pb|].
  - intros [|dim] phi' Hd _; [lia|discriminate].
  - right. intros k bot l up Hb. cbn in Hb. injection Hb as <- <- <- <-. lia.
Qed.
