(** Lemmas for the position of the points of a Bezier reparameterization: the intervals over one point. *)
From Coq Require Import Reals List Lia Lra Permutation Sorted Arith ZArith.
From Verif Require Import M_BzReparam S_BzReparam S_BzGeo S_General S_Mesh S_Roots L_Real L_BBox L_Point L_Mesh L_Roots P_Roots L_General L_General2 L_General3 L_Geo1 L_BzReparam L_BzReparam2 L_BzGeo1.
Import ListNotations.
Local Close Scope Z_scope. Local Close Scope nat_scope. Local Open Scope R_scope.

Definition apart (l : list R) : Prop := forall u v, In u l -> In v l -> u = v \/ tiny < Rabs (u - v).
Section Intervals.
Context {P : Type}.
Variable Z : bz_oracles P.
Hypothesis HZ : bz_sound Z.

Lemma adjust_unit n T entries : mids (fo n) T -> Permutation entries ([(0, (-1)%Z); (1, (-1)%Z)] ++ T) ->
  exists mid s, adjust_roots (z_sort Z) default_tol 0 1 (ent entries) = Ret (ent (full_list (fo n) mid)) /\ StronglySorted Rle (0 :: map fst mid ++ [1]) /\ Permutation s T /\ StronglySorted Rle (map fst s) /\
    Forall2 (moved_within tiny) s mid /\ (apart (0 :: 1 :: map fst T) -> mid = s).
Proof.
  intros M PE. destruct (adjust_geo2 (FO Z) 1 (FO_sound Z HZ) (fo n) (fo_wf n) eq_refl [(0, (-1)%Z); (1, (-1)%Z)] T entries M (Permutation_refl _) PE) as (mid & s & E & S1 & PS & SS & MV & Va).
  rewrite fo_tol in E, MV. rewrite tiny_tol in MV. exists mid, s. split; [exact E|]. split; [unfold full_list in S1; cbn [map fst] in S1; rewrite map_app in S1; exact S1|]. split; [exact PS|]. split; [exact SS|]. split; [exact MV|].
  intros A. assert (Hs : forall e, In e s -> In (fst e) (map fst T)) by (intros e He; apply in_map; apply (Permutation_in _ PS); exact He).
  clear E S1 PS SS. revert Va Hs. induction MV as [|a b s mid [H1 H2] _ IH]; intros Va Hs; [reflexivity|]. inversion Va as [|? ? Vb Vm]; subst. f_equal; [|apply IH; [exact Vm|intros; apply Hs; right; assumption]].
  specialize (Hs a (or_introl eq_refl)). assert (E : fst a = fst b).
  { destruct (A (fst a) (fst b)) as [E|E]; [right; right; exact Hs|destruct Vb as [Vb|[Vb|Vb]]; [left; symmetry; exact Vb|right; left; symmetry; exact Vb|right; right; exact Vb]|exact E|lra]. }
  destruct a, b. cbn [fst snd] in *. congruence.
Qed.
Lemma all_unit l pt : exists iv mid s, all_intervals Z l pt = Ret iv /\ iv_ri iv = ent (full_list (fo (length (v_phi l))) mid) /\ iv_point iv = pt /\ iv_active iv = wide (ri_roots (iv_ri iv)) /\
  StronglySorted Rle (0 :: map fst mid ++ [1]) /\ Permutation s (tagp (fun ip => bz_roots Z l (snd ip) pt) (indexed l)) /\ StronglySorted Rle (map fst s) /\
  (apart (0 :: 1 :: map fst (tagp (fun ip => bz_roots Z l (snd ip) pt) (indexed l))) -> mid = s).
Proof.
  unfold all_intervals. change ri_empty with (ent []). rewrite add_ent by (repeat constructor; cbn [snd]; lia). cbn [bind app].
  rewrite (foldM_tagp (fun ip => bz_roots Z l (snd ip) pt)). cbn [bind]. set (T := tagp _ (indexed l)).
  assert (M : mids (fo (length (v_phi l))) T) by (apply tagp_mids; intros; apply (roots_inside Z HZ)).
  destruct (adjust_unit (length (v_phi l)) T ([(0, (-1)%Z); (1, (-1)%Z)] ++ T) M (Permutation_refl _)) as (mid & s & E & S1 & PS & SS & _ & Ap). cbn [app] in E. change ([(0, (-1)%Z); (1, (-1)%Z)] ++ T) with ((0, (-1)%Z) :: (1, (-1)%Z) :: T). rewrite E. cbn [bind].
  unfold assert_. cbn [ent ri_roots]. rewrite map_length, full_len. destruct (Nat.ltb_spec 1 (length mid + 2)); [|lia]. eexists _, mid, s. split; [reflexivity|]. cbn [iv_ri iv_point iv_active ent ri_roots]. auto 10.
Qed.
Lemma roots_full n mid : ri_roots (ent (full_list (fo n) mid)) = 0 :: map fst mid ++ [1].
Proof. cbn [ent ri_roots]. unfold full_list. cbn [map fst]. rewrite map_app. reflexivity. Qed.

(** One polynomial. *)
Definition tag0 (vs : list R) : list (R * BinNums.Z) := map (fun r => (r, 0%Z)) vs.
Lemma tag0_fst vs : map fst (tag0 vs) = vs.
Proof. unfold tag0. rewrite map_map. apply map_id. Qed.
Lemma tag0_perm s vs : Permutation s (tag0 vs) -> s = tag0 (map fst s).
Proof.
  intros H. assert (F : forall e, In e s -> snd e = 0%Z) by (intros e He; apply (Permutation_in _ H) in He; apply in_map_iff in He as (r & <- & _); reflexivity). clear H.
  induction s as [|[a b] s IH]; [reflexivity|]. cbn [map fst tag0]. rewrite (F (a, b) (or_introl eq_refl) : b = 0%Z). f_equal. apply IH. intros; apply F; right; assumption.
Qed.
Variables (l : blevel P) (p : P).
Hypothesis Hphi : v_phi l = [p].
Lemma one_indexed : indexed l = [(0%nat, p)].
Proof. unfold indexed. rewrite Hphi. reflexivity. Qed.
Lemma one_tagp f : tagp f (indexed l) = tag0 (f (0%nat, p)).
Proof. rewrite one_indexed. unfold tagp. cbn [flat_map fst]. rewrite app_nil_r. reflexivity. Qed.
Lemma sep_apart vs : StronglySorted (fun u v => u + tiny < v) (0 :: vs ++ [1]) -> apart (0 :: 1 :: vs).
Proof.
  intros H. assert (K : forall w, StronglySorted (fun u v => u + tiny < v) w -> apart w).
  { pose proof tiny_pos. induction 1 as [|x w _ IH F]; intros u v; [intros []|]. rewrite Forall_forall in F. intros [<-|Hu] [<-|Hv]; [left; reflexivity|right; apply F in Hv; cases_abs; lra|right; apply F in Hu; cases_abs; lra|apply IH; assumption]. }
  apply K in H. intros u v Hu Hv. apply H; (cbn [In] in *; rewrite in_app_iff; cbn [In]; intuition).
Qed.
Lemma sep_lt vs : StronglySorted (fun u v => u + tiny < v) vs -> StronglySorted Rle vs.
Proof. apply sorted_imp. intros. pose proof tiny_pos. lra. Qed.
(** At the reference point. *)
Lemma ref_unit pt h vs iv : zeros_of Z l p pt h -> StronglySorted (fun u v => u + tiny < v) (0 :: vs ++ [1]) -> (forall v, In v vs -> h v = 0) -> (forall y, unit_interval y -> h y = 0 -> In y vs) ->
  all_intervals Z l pt = Ret iv -> iv_ri iv = ent (full_list (fo 1) (tag0 vs)) /\ iv_point iv = pt /\ iv_active iv = wide (0 :: vs ++ [1]).
Proof.
  intros [ND Hz] Sep H0 Hall E. destruct (all_unit l pt) as (iv' & mid & s & E' & Er & Ep & Ea & S1 & PS & SS & Ap). rewrite E in E'. injection E' as <-. rewrite one_tagp in PS, Ap. cbn [snd] in PS, Ap.
  assert (U : forall v, In v vs -> unit_interval v).
  { pose proof (sep_lt _ Sep) as Sl. inversion Sl as [|? ? S2 F]; subst. apply sorted_app_inv in S2 as (_ & _ & C). rewrite Forall_forall in F. intros v Hv. split; [apply F, in_or_app; left; exact Hv|apply C; [exact Hv|left; reflexivity]]. }
  assert (Sv : StronglySorted Rle vs) by (pose proof (sep_lt _ Sep) as Sl; inversion Sl as [|? ? S2 F]; subst; apply sorted_app_inv in S2; apply S2).
  assert (NDv : NoDup vs). { apply sorted_lt_nodup. assert (S2 : StronglySorted Rlt (0 :: vs ++ [1])) by (revert Sep; apply sorted_imp; intros; pose proof tiny_pos; lra). inversion S2 as [|? ? S3 F]; subst. apply sorted_app_inv in S3. apply S3. }
  assert (Pv : Permutation (bz_roots Z l p pt) vs).
  { apply NoDup_Permutation; [exact ND|exact NDv|]. intros y. split; intros Hy.
    - assert (Uy : unit_interval y) by (pose proof (roots_inside Z HZ l p pt) as F; rewrite Forall_forall in F; apply F; exact Hy). apply Hall; [exact Uy|apply Hz; assumption].
    - apply Hz; [apply U; exact Hy|apply H0; exact Hy]. }
  assert (Em : mid = s).
  { apply Ap. rewrite tag0_fst. pose proof (sep_apart vs Sep) as A. intros u v Hu Hv. apply A; (cbn [In] in *; intuition; right; right; apply (Permutation_in _ Pv); assumption). }
  subst mid. assert (Es : s = tag0 vs).
  { rewrite (tag0_perm s _ PS). f_equal. apply sorted_unique; [exact SS|exact Sv|]. rewrite <- Pv. rewrite <- (tag0_fst (bz_roots Z l p pt)). apply Permutation_map. exact PS. }
  rewrite Hphi in Er. cbn [length] in Er. subst s. split; [exact Er|]. split; [exact Ep|]. rewrite Ea, Er, roots_full, tag0_fst. reflexivity.
Qed.

(** At another point: the roots are near the values there, or at a point that is a little nearer to the reference. *)
Lemma cnt_tag0 vs : cnt 0 (tag0 vs) = length vs.
Proof. unfold cnt, tag0. rewrite map_map. cbn [snd]. induction vs as [|v vs IH]; [reflexivity|]. cbn [map filter]. change (0 =? Z.of_nat 0)%Z with true. cbn [length]. rewrite IH. reflexivity. Qed.
Lemma tag0_mids vs : Forall unit_interval vs -> mids (fo 1) (tag0 vs).
Proof. intros F. unfold mids. apply Forall_forall. intros e He. apply in_map_iff in He as (r & <- & Hr). cbn [fst snd]. rewrite Forall_forall in F. split; [exact (F r Hr)|cbn; lia]. Qed.
Lemma F2_len {A B} (Q : A -> B -> Prop) a b : Forall2 Q a b -> length a = length b.
Proof. induction 1; cbn; congruence. Qed.
Lemma unit_similar ref vs0 pt (good : list R -> Prop) iv : Forall unit_interval vs0 -> iv_ri ref = ent (full_list (fo 1) (tag0 vs0)) ->
  (vs0 = [] -> good []) -> (forall rs, similar_roots Z l ref 0 p pt = Ret rs -> length rs = length vs0 -> Forall unit_interval rs -> forall s ms, Permutation s rs -> StronglySorted Rle s -> Forall2 (fun a b => Rabs (a - b) <= tiny) s ms -> good ms) ->
  similar_intervals Z l ref pt = Ret iv ->
  exists ms, ri_roots (iv_ri iv) = 0 :: ms ++ [1] /\ iv_active iv = iv_active ref /\ StronglySorted Rle (0 :: ms ++ [1]) /\ length ms = length vs0 /\ good ms.
Proof.
  intros F0 Er G0 G1 E. unfold similar_intervals in E. rewrite Er in E. rewrite roots_full, tag0_fst in E. cbn [length] in E. rewrite app_length in E. cbn [length] in E.
  destruct (Nat.eqb_spec (S (length vs0 + 1)) 2) as [E2|E2].
  - injection E as <-. assert (vs0 = []) by (destruct vs0; [reflexivity|cbn in E2; lia]). subst vs0. exists []. rewrite Er, roots_full. cbn [tag0 map app]. split; [reflexivity|]. split; [reflexivity|]. split; [|split; [reflexivity|apply G0; reflexivity]].
    constructor; [constructor; constructor|constructor; [lra|constructor]].
  - rewrite one_indexed in E. cbn [foldM fst snd] in E. destruct (similar_roots Z l ref 0 p pt) as [rs| | |] eqn:Es; try discriminate. cbn [bind] in E.
    assert (Ok : length rs = length vs0 /\ Forall unit_interval rs).
    { pose proof (similar_roots_ok Z HZ l ref (tag0 vs0) 0 p pt) as H. rewrite Hphi in H. specialize (H Er (tag0_mids vs0 F0)). rewrite one_indexed in H. specialize (H (or_introl eq_refl)). rewrite Es, cnt_tag0 in H. exact H. }
    destruct Ok as [Lr Hin].
    change ri_empty with (ent []) in E. rewrite add_ent in E by apply tag_ids. cbn [bind app] in E. change (Z.of_nat 0) with 0%Z in E. fold (tag0 rs) in E. rewrite add_ent in E by (repeat constructor; cbn [snd]; lia). cbn [bind] in E.
    assert (M := tag0_mids rs Hin).
    destruct (adjust_unit 1 (tag0 rs) (tag0 rs ++ [(0, (-1)%Z); (1, (-1)%Z)]) M (Permutation_app_comm _ _)) as (mid & s & Ea & S1 & PS & SS & MV & _).
    rewrite Ea in E. cbn [ent ri_roots] in E. rewrite map_length, app_length in E. cbn [length] in E. unfold assert_ in E. destruct (_ =? _)%nat in E; [|discriminate]. cbn [bind] in E. injection E as <-. cbn [iv_ri iv_active].
    change (mk_ri _ _ _) with (ent (full_list (fo 1) mid)). exists (map fst mid). rewrite roots_full. split; [reflexivity|]. split; [reflexivity|]. split; [exact S1|].
    assert (Lm : length (map fst mid) = length rs) by (rewrite map_length, <- (F2_len _ _ _ MV), (Permutation_length PS); unfold tag0; apply map_length). split; [congruence|]. apply (G1 rs eq_refl Lr Hin (map fst s)); [|exact SS|].
    + rewrite <- (tag0_fst rs). apply Permutation_map. exact PS.
    + clear -MV. induction MV as [|a b s mid [_ H] _ IH]; cbn [map]; constructor; assumption.
Qed.
End Intervals.
