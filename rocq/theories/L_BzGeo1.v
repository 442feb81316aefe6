(** Lemmas for the position of the points of a Bezier reparameterization: the roots over one point. *)
From Coq Require Import Reals List Lia Lra Permutation Sorted Arith ZArith.
From Verif Require Import M_BzReparam S_BzReparam S_BzGeo S_General S_Mesh S_Roots L_Real L_BBox L_Point L_Mesh L_Roots P_Roots L_General L_General2 L_General3 L_Geo1 L_BzReparam L_BzReparam2.
Import ListNotations.
Local Close Scope Z_scope. Local Close Scope nat_scope. Local Open Scope R_scope.

Lemma tiny_tol : default_tol = tiny.
Proof. reflexivity. Qed.
Lemma tiny_pos : 0 < tiny.
Proof. unfold tiny. assert (0 < 2 ^ 52) by (apply pow_lt; lra). apply Rmult_lt_0_compat; [lra|apply Rinv_0_lt_compat; assumption]. Qed.
Lemma tiny_small : tiny < / 4.
Proof. unfold tiny. simpl. lra. Qed.

(** Two sorted lists with the same elements. *)
Lemma sorted_unique : forall a b : list R, StronglySorted Rle a -> StronglySorted Rle b -> Permutation a b -> a = b.
Proof.
  induction a as [|x a IH]; intros b Sa Sb Pm; [apply Permutation_nil in Pm; congruence|]. destruct b as [|y b]; [apply Permutation_sym, Permutation_nil in Pm; discriminate|].
  inversion Sa as [|? ? Sa' Fa]; subst. inversion Sb as [|? ? Sb' Fb]; subst. assert (E : x = y).
  { rewrite Forall_forall in Fa, Fb. assert (Hx : In x (y :: b)) by (apply (Permutation_in _ Pm); left; reflexivity). assert (Hy : In y (x :: a)) by (apply (Permutation_in _ (Permutation_sym Pm)); left; reflexivity).
    destruct Hx as [Hx|Hx]; [congruence|]. destruct Hy as [Hy|Hy]; [congruence|]. apply Fa in Hy. apply Fb in Hx. lra. }
  subst y. f_equal. apply IH; [assumption|assumption|]. eapply Permutation_cons_inv. exact Pm.
Qed.
Lemma sorted_imp (P Q : R -> R -> Prop) : (forall x y, P x y -> Q x y) -> forall l, StronglySorted P l -> StronglySorted Q l.
Proof. intros H l. induction 1 as [|x l _ IH F]; constructor; [exact IH|]. eapply Forall_impl; [|exact F]. auto. Qed.
Lemma sorted_lt_nodup l : StronglySorted Rlt l -> NoDup l.
Proof. induction 1 as [|x l _ IH F]; constructor; [|exact IH]. intros H. rewrite Forall_forall in F. apply F in H. lra. Qed.
Lemma sorted_app_inv (Q : R -> R -> Prop) : forall a b, StronglySorted Q (a ++ b) -> StronglySorted Q a /\ StronglySorted Q b /\ forall x y, In x a -> In y b -> Q x y.
Proof.
  induction a as [|x a IH]; intros b H; cbn [app] in *; [split; [constructor|split; [exact H|intros x y []]]|]. inversion H as [|? ? H1 H2]; subst. destruct (IH b H1) as (A & B & C). apply Forall_app in H2 as [F1 F2].
  split; [constructor; assumption|]. split; [exact B|]. intros u v [<-|Hu] Hv; [rewrite Forall_forall in F2; apply F2; exact Hv|apply C; assumption].
Qed.
Lemma sorted_nth (Q : R -> R -> Prop) d : forall l i j, StronglySorted Q l -> (i < j < length l)%nat -> Q (nth i l d) (nth j l d).
Proof.
  induction l as [|x l IH]; intros i j H Hij; [cbn in Hij; lia|]. inversion H as [|? ? H1 H2]; subst. cbn [length] in Hij. destruct j as [|j]; [lia|]. destruct i as [|i]; cbn [nth].
  - rewrite Forall_forall in H2. apply H2, nth_In. lia.
  - apply IH; [exact H1|lia].
Qed.

(** Moving the values near the ends to the ends. *)
Definition snap (v : R) : R := if tol_equal default_tol v 0 then 0 else if tol_equal default_tol v 1 then 1 else v.
Definition low (v : R) : bool := tol_equal default_tol v 0.
Definition high (v : R) : bool := tol_equal default_tol v 1.
Ltac cases_abs := unfold Rabs in *; repeat match goal with H : context [Rcase_abs ?t] |- _ => destruct (Rcase_abs t) | |- context [Rcase_abs ?t] => destruct (Rcase_abs t) end.
Lemma low_iff v : low v = true <-> Rabs (v - 0) <= tiny.
Proof. unfold low. rewrite tol_equal_iff, tiny_tol. reflexivity. Qed.
Lemma high_iff v : high v = true <-> Rabs (v - 1) <= tiny.
Proof. unfold high. rewrite tol_equal_iff, tiny_tol. reflexivity. Qed.
Lemma low_niff v : low v = false <-> tiny < Rabs (v - 0).
Proof. unfold low. rewrite tol_equal_niff, tiny_tol. reflexivity. Qed.
Lemma high_niff v : high v = false <-> tiny < Rabs (v - 1).
Proof. unfold high. rewrite tol_equal_niff, tiny_tol. reflexivity. Qed.
Lemma interior_away v : unit_interval v -> (interior v = true <-> away v).
Proof.
  unfold interior, unit_interval, away. fold (low v) (high v). intros Hv. rewrite Bool.negb_true_iff, Bool.orb_false_iff, low_niff, high_niff. pose proof tiny_pos. pose proof tiny_small. split; [intros [A B]; cases_abs; lra|intros A; split; cases_abs; lra].
Qed.
Lemma snap_near v : unit_interval v -> Rabs (snap v - v) <= tiny /\ unit_interval (snap v).
Proof.
  unfold unit_interval, snap. intros Hv. fold (low v) (high v). pose proof tiny_pos. destruct (low v) eqn:E; [apply low_iff in E; split; cases_abs; lra|]. destruct (high v) eqn:E'; [apply high_iff in E'; split; cases_abs; lra|]. split; [|lra]. rewrite Rminus_eq_0, Rabs_R0. lra.
Qed.
Lemma snap_mono u v : unit_interval u -> unit_interval v -> u <= v -> snap u <= snap v.
Proof.
  unfold unit_interval, snap. intros Hu Hv H. fold (low u) (high u) (low v) (high v). pose proof tiny_pos. pose proof tiny_small.
  destruct (low u) eqn:E; [apply low_iff in E|apply low_niff in E]; (destruct (low v) eqn:E'; [apply low_iff in E'|apply low_niff in E']); (destruct (high u) eqn:E2; [apply high_iff in E2|apply high_niff in E2]); (destruct (high v) eqn:E3; [apply high_iff in E3|apply high_niff in E3]); cases_abs; lra.
Qed.
Lemma snap_sorted vs : Forall unit_interval vs -> StronglySorted Rle vs -> StronglySorted Rle (map snap vs).
Proof.
  induction vs as [|v vs IH]; intros F H; [constructor|]. inversion F as [|? ? Fv Fs]; subst. inversion H as [|? ? H1 H2]; subst. cbn [map]. constructor; [apply IH; assumption|]. apply Forall_forall. intros y Hy. apply in_map_iff in Hy as (w & <- & Hw).
  rewrite Forall_forall in *. apply snap_mono; auto.
Qed.
Lemma snap_perm vs : Forall unit_interval vs -> Permutation (map snap vs) (filter interior vs ++ repeat 0 (length (filter low vs)) ++ repeat 1 (length (filter high vs))).
Proof.
  induction vs as [|v vs IH]; intros F; [constructor|]. inversion F as [|? ? Hv Hvs]; subst. specialize (IH Hvs). cbn [map filter]. unfold interior at 1, snap at 1. fold (low v) (high v).
  assert (X : ~ (low v = true /\ high v = true)) by (intros [A B]; apply low_iff in A; apply high_iff in B; pose proof tiny_small; cases_abs; lra).
  destruct (low v) eqn:E; destruct (high v) eqn:E'; cbn [orb negb length repeat]; [tauto| | |].
  - etransitivity; [apply perm_skip; exact IH|]. apply Permutation_middle.
  - etransitivity; [apply perm_skip; exact IH|]. rewrite !app_assoc. apply Permutation_middle.
  - apply perm_skip. exact IH.
Qed.
Lemma forall2_map_l {A} (g : A -> R) (Q : R -> A -> Prop) : forall l, (forall x, In x l -> Q (g x) x) -> Forall2 Q (map g l) l.
Proof. induction l as [|x l IH]; intros H; cbn [map]; constructor; [apply H; left; reflexivity|apply IH; intros; apply H; right; assumption]. Qed.

(** At most one value satisfies a test that only the value of one position can satisfy. *)
Lemma filter_one (t : R -> bool) : forall vs, (forall i j, (i < j < length vs)%nat -> t (nth i vs 0) = true -> t (nth j vs 0) = true -> False) -> (length (filter t vs) <= 1)%nat.
Proof.
  induction vs as [|v vs IH]; intros H; [cbn; lia|]. cbn [filter]. assert (IHv : (length (filter t vs) <= 1)%nat) by (apply IH; intros i j Hij; apply (H (S i) (S j)); cbn [length]; lia).
  destruct (t v) eqn:E; [|exact IHv]. assert (E0 : filter t vs = []); [|rewrite E0; cbn; lia]. destruct (filter t vs) as [|w ws] eqn:Ew; [reflexivity|]. exfalso.
  assert (Hw : In w (filter t vs)) by (rewrite Ew; left; reflexivity). apply filter_In in Hw as [Hw Tw]. destruct (In_nth _ _ 0 Hw) as (j & Hj & Ej). apply (H 0%nat (S j)); [cbn [length]; lia|exact E|cbn [nth]; rewrite Ej; exact Tw].
Qed.
Lemma filter_nodup (t : R -> bool) : forall vs, (forall i j, (i < j < length vs)%nat -> t (nth i vs 0) = true -> nth i vs 0 <> nth j vs 0) -> NoDup (filter t vs).
Proof.
  induction vs as [|v vs IH]; intros H; [constructor|]. cbn [filter]. assert (IHv : NoDup (filter t vs)) by (apply IH; intros i j Hij; apply (H (S i) (S j)); cbn [length]; lia).
  destruct (t v) eqn:E; [|exact IHv]. constructor; [|exact IHv]. intros Hv. apply filter_In in Hv as [Hv _]. destruct (In_nth _ _ 0 Hv) as (j & Hj & Ej). apply (H 0%nat (S j)); [cbn [length]; lia|exact E|cbn [nth]; symmetry; exact Ej].
Qed.
Lemma three_len vs : Forall unit_interval vs -> length vs = (length (filter interior vs) + length (filter low vs) + length (filter high vs))%nat.
Proof. intros F. pose proof (Permutation_length (snap_perm vs F)) as H. rewrite map_length, !app_length, !repeat_length in H. lia. Qed.
Lemma one_of (t : R -> bool) vs : (length (filter t vs) <= 1)%nat -> (length (filter t vs) = 0%nat /\ forall v, In v vs -> t v = false) \/ (length (filter t vs) = 1%nat /\ exists v, In v vs /\ t v = true).
Proof.
  intros H. destruct (filter t vs) as [|w ws] eqn:E; [left|right]; cbn [length] in *.
  - split; [reflexivity|]. intros v Hv. destruct (t v) eqn:Et; [|reflexivity]. assert (X : In v (filter t vs)) by (apply filter_In; auto). rewrite E in X. destruct X.
  - split; [destruct ws; cbn in *; lia|]. exists w. apply filter_In. rewrite E. left. reflexivity.
Qed.

Section Over.
Context {P : Type}.
Variable Z : bz_oracles P.
Hypothesis HZ : bz_sound Z.

(** The roots of a line are the zeros of h. *)
Definition zeros_of (l : blevel P) (p : P) (pt : list R) (h : R -> R) : Prop := NoDup (bz_roots Z l p pt) /\ forall y, unit_interval y -> (In y (bz_roots Z l p pt) <-> h y = 0).
Lemma complete_ok l ref p roots_i pt h vs : zeros_of l p pt h -> (forall y, z_eval Z p (ins_at pt (v_dir l) y) = h y) -> length roots_i = length vs -> Forall unit_interval vs -> (forall v, In v vs -> h v = 0) ->
  (forall y, away y -> h y = 0 -> In y vs) -> (forall i j, (i < j < length vs)%nat -> away (nth i vs 0) -> nth i vs 0 <> nth j vs 0) -> (forall i j, (i < j < length vs)%nat -> tiny < nth j vs 0 /\ nth i vs 0 < 1 - tiny) ->
  (forall v, In v vs -> near_end 0 v -> Rabs (h 0) <= tiny /\ (Rabs (h 1) <= tiny -> exists w, In w vs /\ near_end 1 w)) ->
  (forall v, In v vs -> near_end 1 v -> Rabs (h 1) <= tiny /\ (Rabs (h 0) <= tiny -> exists w, In w vs /\ near_end 0 w)) ->
  Permutation (complete_roots Z l ref p roots_i pt) (map snap vs).
Proof.
  intros [ND Hz] Ev Li Fv H0 Hall Hd Hone He0 He1. pose proof tiny_pos as T0. pose proof tiny_small as T1.
  assert (U : forall v, In v vs -> unit_interval v) by (apply Forall_forall; exact Fv).
  unfold complete_roots. fold interior. change (fun r : R => negb (tol_equal default_tol r 0 || tol_equal default_tol r 1)) with interior. set (new := filter interior (bz_roots Z l p pt)).
  assert (Pn : Permutation new (filter interior vs)).
  { apply NoDup_Permutation; [apply NoDup_filter; exact ND| |].
    - apply filter_nodup. intros i j Hij Hi. apply Hd; [exact Hij|]. apply interior_away; [apply U, nth_In; lia|exact Hi].
    - intros y. unfold new. rewrite !filter_In. split; intros [A B].
      + assert (Uy : unit_interval y) by (pose proof (roots_inside Z HZ l p pt) as F; rewrite Forall_forall in F; apply F; exact A). split; [|exact B]. apply Hall; [apply interior_away; assumption|apply Hz; assumption].
      + split; [|exact B]. apply Hz; [apply U; exact A|apply H0; exact A]. }
  assert (Nlow : (length (filter low vs) <= 1)%nat).
  { apply filter_one. intros i j Hij _ B. apply low_iff in B. destruct (Hone i j Hij) as [A _]. assert (Uj := U (nth j vs 0) ltac:(apply nth_In; lia)). unfold unit_interval in Uj. cases_abs; lra. }
  assert (Nhigh : (length (filter high vs) <= 1)%nat).
  { apply filter_one. intros i j Hij A _. apply high_iff in A. destruct (Hone i j Hij) as [_ B]. assert (Ui := U (nth i vs 0) ltac:(apply nth_In; lia)). unfold unit_interval in Ui. cases_abs; lra. }
  pose proof (three_len vs Fv) as L3. pose proof (Permutation_length Pn) as Ln. pose proof (snap_perm vs Fv) as Ps. rewrite <- Pn in Ps.
  assert (Ne0 : forall v, In v vs -> low v = true <-> near_end 0 v) by (intros v Hv; rewrite low_iff; unfold near_end; split; [intros A; split; [apply U; exact Hv|exact A]|intros [_ A]; exact A]).
  assert (Ne1 : forall v, In v vs -> high v = true <-> near_end 1 v) by (intros v Hv; rewrite high_iff; unfold near_end; split; [intros A; split; [apply U; exact Hv|exact A]|intros [_ A]; exact A]).
  rewrite !Ev. assert (R0 : tol_equal default_tol (Rabs (h 0)) 0 = true <-> Rabs (h 0) <= tiny) by (rewrite tol_equal_iff, tiny_tol, Rminus_0_r, Rabs_Rabsolu; reflexivity).
  assert (R1 : tol_equal default_tol (Rabs (h 1)) 0 = true <-> Rabs (h 1) <= tiny) by (rewrite tol_equal_iff, tiny_tol, Rminus_0_r, Rabs_Rabsolu; reflexivity).
  set (root_0 := tol_equal default_tol (Rabs (h 0)) 0) in *. set (root_1 := tol_equal default_tol (Rabs (h 1)) 0) in *. clearbody root_0 root_1. clear Pn. rewrite Li.
  destruct (one_of low vs Nlow) as [[Cl Al]|[Cl (v0 & V0 & E0)]]; destruct (one_of high vs Nhigh) as [[Ch Ah]|[Ch (v1 & V1 & E1)]]; rewrite Cl, Ch in *; cbn [repeat app] in Ps.
  - destruct (Nat.ltb_spec (length new) (length vs)); [lia|]. rewrite app_nil_r in Ps. symmetry. exact Ps.
  - destruct (Nat.ltb_spec (length new) (length vs)); [|lia]. destruct (He1 v1 V1 (proj1 (Ne1 v1 V1) E1)) as [A B]. rewrite (proj2 R1 A). assert (Ef : root_0 = false).
    { destruct root_0; [|reflexivity]. exfalso. destruct (B (proj1 R0 eq_refl)) as (w & Hw & Nw). apply (Ne0 w Hw) in Nw. rewrite (Al w Hw) in Nw. discriminate. }
    rewrite Ef. cbn [xorb]. replace (length vs - length new)%nat with 1%nat by lia. symmetry. exact Ps.
  - destruct (Nat.ltb_spec (length new) (length vs)); [|lia]. destruct (He0 v0 V0 (proj1 (Ne0 v0 V0) E0)) as [A B]. rewrite (proj2 R0 A). assert (Ef : root_1 = false).
    { destruct root_1; [|reflexivity]. exfalso. destruct (B (proj1 R1 eq_refl)) as (w & Hw & Nw). apply (Ne1 w Hw) in Nw. rewrite (Ah w Hw) in Nw. discriminate. }
    rewrite Ef. cbn [xorb]. replace (length vs - length new)%nat with 1%nat by lia. symmetry. exact Ps.
  - destruct (Nat.ltb_spec (length new) (length vs)); [|lia]. destruct (He0 v0 V0 (proj1 (Ne0 v0 V0) E0)) as [A _]. destruct (He1 v1 V1 (proj1 (Ne1 v1 V1) E1)) as [B _]. rewrite (proj2 R0 A), (proj2 R1 B). cbn [xorb andb].
    destruct (Nat.eqb_spec (length new + 2) (length vs)); [|lia]. symmetry. exact Ps.
Qed.
(** Not small at the ends: the roots away from the ends are not completed. *)
Lemma complete_away l ref p roots_i pt h : (forall y, z_eval Z p (ins_at pt (v_dir l) y) = h y) -> tiny < Rabs (h 0) -> tiny < Rabs (h 1) -> complete_roots Z l ref p roots_i pt = filter interior (bz_roots Z l p pt).
Proof.
  intros Ev A0 A1. unfold complete_roots. change (fun r : R => negb (tol_equal default_tol r 0 || tol_equal default_tol r 1)) with interior. rewrite !Ev.
  assert (R0 : tol_equal default_tol (Rabs (h 0)) 0 = false) by (apply tol_equal_niff; rewrite tiny_tol, Rminus_0_r, Rabs_Rabsolu; exact A0).
  assert (R1 : tol_equal default_tol (Rabs (h 1)) 0 = false) by (apply tol_equal_niff; rewrite tiny_tol, Rminus_0_r, Rabs_Rabsolu; exact A1).
  rewrite R0, R1. cbn [xorb andb]. destruct (_ <? _)%nat; reflexivity.
Qed.
(** The first value tried by the backup strategies. *)
Lemma backup_head : exists ts, backup_ts = tiny :: ts.
Proof.
  unfold backup_ts. eexists. cbn [seq map app]. f_equal. cbn [INR]. rewrite Rmult_0_l, Rplus_0_r. apply exp_ln. exact tiny_pos.
Qed.
End Over.
