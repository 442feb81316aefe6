(** Lemmas for the number of cells of a Bezier reparameterization in the plane. *)
From Coq Require Import Reals List Lia Lra Permutation Sorted Arith ZArith.
From Verif Require Import M_BzReparam S_BzReparam S_BzGeo S_BzCount S_General S_Mesh S_Roots L_Real L_BBox L_Point L_Mesh L_Roots P_Roots L_General L_General2 L_General3 L_Geo1 L_Geo2 L_BzReparam L_BzReparam2 L_BzReparam3 L_BzGeo1 L_BzGeo2 L_BzGeo3 L_BzGeo4.
Import ListNotations.
Local Close Scope Z_scope. Local Close Scope nat_scope. Local Open Scope R_scope.

Definition trues (act : list bool) : nat := length (filter (fun v => v) act).
Definition asum {A} (g : A -> nat) (s : list A) : nat := fold_right (fun x n => (g x + n)%nat) 0%nat s.
Lemma asum_ext {A} (g h : A -> nat) s : (forall x, In x s -> g x = h x) -> asum g s = asum h s.
Proof. induction s as [|x s IH]; intros H; [reflexivity|]. cbn. rewrite (H x (or_introl eq_refl)). f_equal. apply IH. intros y Hy. apply H. right. exact Hy. Qed.
Lemma asum_mul {A} (g : A -> nat) c s : asum (fun x => (g x * c)%nat) s = (asum g s * c)%nat.
Proof. induction s as [|x s IH]; cbn; [reflexivity|]. unfold asum in IH. rewrite IH. lia. Qed.
Lemma asum_const {A} c (s : list A) : asum (fun _ => c) s = (length s * c)%nat.
Proof. induction s as [|x s IH]; cbn; [reflexivity|]. unfold asum in IH. rewrite IH. lia. Qed.
Lemma asum_map {A B} (f : A -> B) (g : B -> nat) s : asum g (map f s) = asum (fun x => g (f x)) s.
Proof. induction s as [|x s IH]; cbn; [reflexivity|]. f_equal. exact IH. Qed.
Lemma foreach_len {B E} (f : B -> outcome (list E)) (g : B -> nat) : forall s es, foreach f s = Ret es -> (forall x e, In x s -> f x = Ret e -> length e = g x) -> length es = asum g s.
Proof.
  induction s as [|x s IH]; intros es H Hg; cbn [foreach] in H; [injection H as <-; reflexivity|]. apply bind_inv in H as (ex & Ex & H). apply bind_inv in H as (es' & Es & H). injection H as <-. rewrite app_length. cbn [asum fold_right].
  rewrite (Hg x ex (or_introl eq_refl) Ex). f_equal. apply IH; [exact Es|]. intros y e Hy. apply Hg. right. exact Hy.
Qed.
Lemma trues_sum : forall act, trues act = asum (fun i => if nth i act false then 1%nat else 0%nat) (seq 0 (length act)).
Proof.
  induction act as [|v act IH]; [reflexivity|]. cbn [length seq]. rewrite <- seq_shift. cbn [asum fold_right nth]. change (fold_right _ _ ?s) with (asum (fun i => if nth i (v :: act) false then 1%nat else 0%nat) s).
  rewrite asum_map. cbn [nth]. rewrite <- IH. unfold trues. cbn [filter]. destruct v; reflexivity.
Qed.
Lemma nth_ext_b : forall a b : list bool, length a = length b -> (forall i, (i < length a)%nat -> nth i a false = nth i b false) -> a = b.
Proof. intros a b. exact (nth_ext a b false false). Qed.

(** The activity of the intervals after the loop, when all of them are wide. *)
Lemma fold_exact {X} (g : nat -> R -> R -> bool) (roots : list R) (rup : X) : forall n s act st,
  foldM (fun (st : list bool * X) i => v <- M_Mesh.at_ (fst st) i ;; if v : bool then x0 <- M_Mesh.at_ roots i ;; x1 <- M_Mesh.at_ roots (S i) ;; Ret (set_at (fst st) i (g i x0 x1), snd st) else Ret st) (seq s n) (act, rup) = Ret st ->
  (forall i, (s <= i < s + n)%nat -> nth i act false = true) ->
  snd st = rup /\ length (fst st) = length act /\ (forall i, (s <= i < s + n)%nat -> nth i (fst st) false = g i (nth i roots 0) (nth (S i) roots 0)) /\ forall i, (i < s)%nat -> nth i (fst st) false = nth i act false.
Proof.
  induction n as [|n IH]; intros s act st E Ht; cbn [seq foldM] in E; [injection E as <-; cbn; split; [reflexivity|]; split; [reflexivity|]; split; [intros; lia|reflexivity]|].
  apply bind_inv in E as ([act1 rup1] & E1 & E). cbn [fst snd] in E1. apply bind_inv in E1 as (v & Ev & E1). apply (at_nth false) in Ev as (_ & Ev & Ls). rewrite (Ht s) in Ev by lia. subst v.
  apply bind_inv in E1 as (x0 & E0 & E1). apply (at_nth 0) in E0 as (_ & E0 & _). apply bind_inv in E1 as (x1 & E2 & E1). apply (at_nth 0) in E2 as (_ & E2 & _). injection E1 as <- <-.
  destruct (IH (S s) (set_at act s (g s x0 x1)) st E) as (A & B & C & D).
  { intros i Hi. rewrite set_at_nth. destruct (Nat.eqb_spec s i); [lia|]. apply Ht. lia. }
  rewrite set_at_length in B. split; [exact A|]. split; [exact B|]. split.
  - intros i Hi. destruct (Nat.eq_dec i s) as [->|Ne]; [|apply C; lia]. rewrite D by lia. rewrite set_at_nth, Nat.eqb_refl. destruct (Nat.ltb_spec s (length act)); [|lia]. rewrite E0, E2. reflexivity.
  - intros i Hi. rewrite D by lia. rewrite set_at_nth. destruct (Nat.eqb_spec s i); [lia|reflexivity].
Qed.
Lemma wide_apart : forall roots, StronglySorted (fun u v => u + tiny < v) roots -> forall i, (S i < length roots)%nat -> nth i (wide roots) false = true.
Proof.
  induction roots as [|x0 roots IH]; intros H i Hi; [cbn in Hi; lia|]. destruct roots as [|x1 roots]; [cbn in Hi; lia|]. inversion H as [|? ? H1 F]; subst. cbn [wide]. destruct i as [|i]; cbn [nth].
  - inversion F as [|? ? Hx _]; subst. apply Bool.negb_true_iff, tol_equal_niff. rewrite tiny_tol. pose proof tiny_pos. cases_abs; lra.
  - apply IH; [exact H1|]. cbn [length] in *. lia.
Qed.
Lemma trues_changes : forall act positive, map negb positive = act -> trues (changes act) = sign_changes positive.
Proof.
  intros act positive <-. assert (St : forall x y r, changes (x :: y :: r) = negb (Bool.eqb x y) :: changes (y :: r)) by reflexivity. assert (Sg : forall x y r, sign_changes (x :: y :: r) = if Bool.eqb x y then sign_changes (y :: r) else S (sign_changes (y :: r))) by reflexivity.
  induction positive as [|s positive IH]; [reflexivity|]. destruct positive as [|t positive]; [reflexivity|]. cbn [map] in *. rewrite St, Sg, <- IH. unfold trues. cbn [filter]. destruct s, t; reflexivity.
Qed.
Lemma trues_neg positive : trues (map negb positive) = negative_layers positive.
Proof. unfold trues, negative_layers. induction positive as [|s positive IH]; [reflexivity|]. cbn [map filter]. destruct s; cbn [negb length]; [exact IH|f_equal; exact IH]. Qed.
(** All the intervals of the top object are inactive. *)
Lemma inactive_top {P} (l : blevel P) r tid ref b : find_tid r tid = Some ref -> M_BzReparam.all_inactive [l] [r] tid = Ret b -> b = false <-> (0 < trues (iv_active ref))%nat.
Proof.
  intros Ef E. cbn [all_inactive] in E. rewrite Ef in E.
  assert (K : forall n s acc, (s + n = length (iv_active ref))%nat -> foldM (fun (acc : bool) i => if acc then a <- M_Mesh.at_ (iv_active ref) i ;; if a : bool then Ret false else Ret true else Ret false) (seq s n) acc = Ret b ->
    b = (acc && forallb negb (skipn s (iv_active ref)))%bool).
  { induction n as [|n IH]; intros s acc Hs H; cbn [seq foldM] in H; [injection H as <-; rewrite skipn_all2 by lia; cbn; rewrite Bool.andb_true_r; reflexivity|].
    apply bind_inv in H as (acc1 & H1 & H). apply IH in H; [|lia]. rewrite H. destruct (nth_error (iv_active ref) s) as [v|] eqn:En; [|apply nth_error_None in En; lia].
    assert (Es : skipn s (iv_active ref) = v :: skipn (S s) (iv_active ref)). { clear -En. revert s En. induction (iv_active ref) as [|w l0 IHl]; intros [|s] En; try discriminate; [injection En as ->; reflexivity|]. cbn [skipn nth_error] in *. apply IHl. exact En. }
    rewrite Es. cbn [forallb]. destruct acc; [|injection H1 as <-; reflexivity]. unfold M_Mesh.at_ in H1. rewrite En in H1. cbn [bind] in H1. destruct v; injection H1 as <-; reflexivity. }
  specialize (K (length (iv_active ref)) 0%nat true eq_refl E). cbn [andb skipn] in K. rewrite K. unfold trues. clear. induction (iv_active ref) as [|v act IH]; cbn; [split; [discriminate|lia]|]. destruct v; cbn; [split; [lia|reflexivity]|exact IH].
Qed.

Section Count.
Context {P : Type}.
Variable Z : bz_oracles P.
Hypothesis HZ : bz_sound Z.
Variables (p : P) (k : nat) (lev : bool) (order : nat).
Hypothesis HA : algoim_exact Z p k.
Notation top base := (mk_bl 2 [p] k base).
Notation f := (height_value Z p k).
Notation qs := (z_elim Z [p] k).
Notation bas := (mk_bl 1 qs 0 0).
Definition cnt_layers (positive : list bool) : nat := if lev then sign_changes positive else negative_layers positive.
Definition width : nat := if lev then 1%nat else order.

Lemma similar_active l ref pt iv : M_BzReparam.similar_intervals Z l ref pt = Ret iv -> iv_active iv = iv_active ref.
Proof.
  unfold M_BzReparam.similar_intervals. destruct (_ =? 2)%nat; [intros [= <-]; reflexivity|]. intros E. apply bind_inv in E as (r0 & _ & E). apply bind_inv in E as (r1 & _ & E). apply assert_inv in E as [_ E]. apply bind_inv in E as (r2 & _ & E). injection E as <-. reflexivity.
Qed.
Lemma top_len base r tid ptid ref x evs : find_tid r tid = Some ref -> bz_process Z lev order [top base] [r] [x] tid ptid = Ret evs -> length evs = (trues (iv_active ref) * width)%nat.
Proof.
  intros Ef E. cbn [bz_process] in E. unfold intervals_at in E. rewrite Ef in E. cbn [v_dim Nat.eqb] in E. apply bind_inv in E as (iv & Ei & E). apply similar_active in Ei. rewrite Ei in E.
  rewrite (foreach_len _ (fun i => ((if nth i (iv_active ref) false then 1 else 0) * width)%nat) _ _ E).
  - rewrite asum_mul, <- trues_sum. reflexivity.
  - clear E. intros i e Hi E. apply bind_inv in E as (v & Ev & E). apply (at_nth false) in Ev as (_ & Ev & _). rewrite Ev. destruct v; [|injection E as <-; reflexivity].
    apply bind_inv in E as (x0 & _ & E). apply bind_inv in E as (x1 & _ & E). unfold width. destruct lev; [injection E as <-; reflexivity|]. rewrite (foreach_len _ (fun _ => 1%nat) _ _ E); [rewrite asum_const, seq_length; lia|]. intros j ej _ [= <-]. reflexivity.
Qed.
(** The reference of a piece. *)
Lemma piece_active base a b ys positive r tid rs : (base <= 1)%nat -> 0 <= a -> a < b -> b <= 1 -> layered f a b ys positive -> separated ys (/ 2 * (a + b)) ->
  M_BzReparam.ref_intervals Z lev [top base] [r] [/ 2 * (a + b)] tid = Ret rs -> exists ref, rs = [emplace r tid ref] /\ trues (iv_active ref) = cnt_layers positive.
Proof.
  intros Hb H0 Hab H1 Ly Se E. set (xm := / 2 * (a + b)) in *. assert (Hk := dir_k Z HZ p k HA). assert (Hm : a < xm < b) by (unfold xm; lra). assert (Hm' : a <= xm <= b) by lra. assert (Um : unit_interval xm) by (unfold unit_interval; lra).
  cbn [M_BzReparam.ref_intervals v_dim v_dir] in E. apply bind_inv in E as (iv & Ei & E).
  destruct (ref_unit Z HZ (top base) p eq_refl [xm] (f xm) (vals ys xm) iv) as (A & B & C).
  { eapply top_zeros; try eassumption. exact (ae_zeros _ _ _ HA). }
  { exact Se. }
  { intros v Hv. eapply vals_zero; eassumption. }
  { intros y Hy Hz. destruct (ly_all _ _ _ _ _ Ly xm y Hm Hy Hz) as (g & Hg & ->). apply in_map_iff. eauto. }
  { exact Ei. }
  apply bind_inv in E as (st & Est & E). cbn [Nat.eqb] in Est. rewrite A, roots_full, tag0_fst in Est. fold (ends ys xm) in Est, C.
  assert (Len : length (ends ys xm) = S (S (length ys))) by (unfold ends, vals; cbn [length]; rewrite app_length, map_length; cbn [length]; lia).
  assert (La : length (iv_active iv) = S (length ys)) by (rewrite C, wide_len, Len; lia).
  destruct (fold_exact (fun i x0 x1 => point_inside Z (top base) (ins_at [xm] k (/ 2 * (x0 + x1)))) (ends ys xm) (@nil refmap) (length (iv_active iv)) 0 (iv_active iv) st Est) as (S1 & S2 & S3 & _).
  { intros i Hi. rewrite C. apply wide_apart; [exact Se|]. rewrite Len. lia. }
  injection E as <-. rewrite S1. eexists. split; [reflexivity|]. cbn [iv_active]. pose proof (ly_count _ _ _ _ _ Ly) as Lp.
  assert (Ea : map negb positive = fst st).
  { apply nth_ext_b; [rewrite map_length; lia|]. rewrite map_length. intros i Hi. rewrite S3 by lia. rewrite (nth_indep _ false (negb false)) by (rewrite map_length; exact Hi). rewrite map_nth.
    set (y := / 2 * (nth i (ends ys xm) 0 + nth (S i) (ends ys xm) 0)). unfold point_inside. cbn [v_phi forallb]. rewrite Bool.andb_true_r. f_equal. change (z_eval Z p (ins_at [xm] k y)) with (z_eval Z p (ins_at [xm] k y)). replace (ins_at [xm] k y) with (over k xm y) by (clear -Hk; destruct k as [|[|k']]; [reflexivity|reflexivity|lia]).
    change (z_eval Z p (over k xm y)) with (f xm y). pose proof (ly_strict _ _ _ _ _ Ly xm Hm) as St. fold (vals ys xm) in St. fold (ends ys xm) in St.
    assert (Hlt : nth i (ends ys xm) 0 < nth (S i) (ends ys xm) 0) by (apply (sorted_nth _ 0); [exact St|lia]).
    assert (Hy : nth i (ends ys xm) 0 < y < nth (S i) (ends ys xm) 0) by (unfold y; lra).
    pose proof (ly_sign _ _ _ _ _ Ly xm y i Hm' ltac:(lia)) as Sg. cbv zeta in Sg. fold (vals ys xm) in Sg. fold (ends ys xm) in Sg. specialize (Sg ltac:(lra)).
    destruct (nth i positive false); [|symmetry; apply Rltb_false; lra]. symmetry. apply Rltb_true. destruct Sg as [Sg|Sg]; [exact Sg|]. exfalso.
    assert (Uy : unit_interval y).
    { assert (Fe : forall v, In v (ends ys xm) -> unit_interval v). { destruct (vals_sorted Z p k a b ys positive Ly xm Hm') as [_ Fv]. intros v [<-|Hv]; [unfold unit_interval; lra|]. apply in_app_or in Hv as [Hv|[<-|[]]]; [rewrite Forall_forall in Fv; auto|unfold unit_interval; lra]. }
      assert (U0 := Fe _ (nth_In (ends ys xm) 0 (n := i) ltac:(lia))). assert (U1 := Fe _ (nth_In (ends ys xm) 0 (n := S i) ltac:(lia))). unfold unit_interval in *. lra. }
    destruct (ly_all _ _ _ _ _ Ly xm y Hm Uy ltac:(lra)) as (g & Hg & Eg). assert (Iy : In y (ends ys xm)) by (right; apply in_or_app; left; rewrite Eg; apply in_map_iff; eauto).
    destruct (In_nth _ _ 0 Iy) as (j & Hj & Ej). destruct (Nat.lt_trichotomy j i) as [C1|[C1|C1]].
    - pose proof (sorted_nth _ 0 _ j i St ltac:(lia)). lra.
    - subst j. lra.
    - destruct (Nat.eq_dec j (S i)) as [->|Ne]; [lra|]. pose proof (sorted_nth _ 0 _ (S i) j St ltac:(lia)). lra. }
  unfold cnt_layers. destruct lev; [apply trues_changes; exact Ea|]. rewrite <- Ea. apply trues_neg.
Qed.

(** The loop over the pieces of the base. *)
Lemma fold_count roots (F : R -> R -> nat)
  (Hr : forall i, nth i (wide roots) false = true -> forall r tid rs, M_BzReparam.ref_intervals Z lev [top 0] [r] [/ 2 * (nth i roots 0 + nth (S i) roots 0)] tid = Ret rs -> exists ref, rs = [emplace r tid ref] /\ trues (iv_active ref) = F (nth i roots 0) (nth (S i) roots 0)) :
  forall n s act r st,
  foldM (fun (st : list bool * list refmap) i => v <- M_Mesh.at_ (fst st) i ;; if v : bool then x0 <- M_Mesh.at_ roots i ;; x1 <- M_Mesh.at_ roots (S i) ;; rs <- M_BzReparam.ref_intervals Z lev [top 0] (snd st) (ins_at [] 0 (/ 2 * (x0 + x1))) (ins_at [] 0 i) ;;
    b <- all_inactive [top 0] rs (ins_at [] 0 i) ;; Ret (set_at (fst st) i (negb b), rs) else Ret st) (seq s n) (act, [r]) = Ret st ->
  (forall i, (s <= i < s + n)%nat -> nth i act false = nth i (wide roots) false) -> (forall i, (s <= i)%nat -> find_tid r [i] = None) ->
  exists r', snd st = [r'] /\ length (fst st) = length act /\ (forall i, (i < s)%nat -> nth i (fst st) false = nth i act false) /\ (forall i ref, find_tid r [i] = Some ref -> find_tid r' [i] = Some ref) /\
    forall i, (s <= i < s + n)%nat -> if nth i (wide roots) false then (nth i (fst st) false = true <-> (0 < F (nth i roots 0%R) (nth (S i) roots 0%R))%nat) /\ exists ref, find_tid r' [i] = Some ref /\ trues (iv_active ref) = F (nth i roots 0) (nth (S i) roots 0)
      else nth i (fst st) false = false.
Proof.
  induction n as [|n IH]; intros s act r st E Hw Hn; cbn [seq foldM] in E; [injection E as <-; cbn; exists r; split; [reflexivity|]; split; [reflexivity|]; split; [auto|]; split; [auto|]; intros; lia|].
  apply bind_inv in E as ([act1 r1] & E1 & E). cbn [fst snd] in E1. apply bind_inv in E1 as (v & Ev & E1). apply (at_nth false) in Ev as (_ & Ev & Ls). rewrite Hw in Ev by lia. destruct v.
  - apply bind_inv in E1 as (x0 & E0 & E1). apply (at_nth 0) in E0 as (_ & E0 & _). apply bind_inv in E1 as (x1 & E2 & E1). apply (at_nth 0) in E2 as (_ & E2 & _). apply bind_inv in E1 as (rs & Ers & E1). apply bind_inv in E1 as (bb & Ebb & E1).
    injection E1 as <- <-. change (ins_at [] 0 s) with [s] in *. change (ins_at [] 0 (/ 2 * (x0 + x1))) with [/ 2 * (x0 + x1)] in Ers. rewrite <- E0, <- E2 in Ers. destruct (Hr s Ev r [s] rs Ers) as (ref & -> & Pc).
    assert (Fr : find_tid (emplace r [s] ref) [s] = Some ref) by (rewrite find_emplace, (Hn s) by lia; destruct (tid_eqb_spec [s] [s]) as [_|Ne]; [reflexivity|contradiction]).
    pose proof (inactive_top (top 0) _ _ _ _ Fr Ebb) as Ib.
    destruct (IH (S s) (set_at act s (negb bb)) (emplace r [s] ref) st E) as (r' & A & B & C & D & G).
    { intros i Hi. rewrite set_at_nth. destruct (Nat.eqb_spec s i) as [Q|Q]; [lia|]. apply Hw. lia. }
    { intros i Hi. rewrite find_emplace, (Hn i) by lia. destruct (tid_eqb_spec [s] [i]) as [Eq|]; [injection Eq; lia|reflexivity]. }
    exists r'. rewrite set_at_length in B. split; [exact A|]. split; [exact B|]. split; [|split].
    + intros i Hi. rewrite C by lia. rewrite set_at_nth. destruct (Nat.eqb_spec s i) as [Q|Q]; [lia|reflexivity].
    + intros i ref' Hf. apply D. rewrite find_emplace, Hf. reflexivity.
    + intros i Hi. destruct (Nat.eq_dec i s) as [->|Ne]; [|apply G; lia]. rewrite Ev. split; [|exists ref; split; [apply D; exact Fr|exact Pc]].
      rewrite C by lia. rewrite set_at_nth, Nat.eqb_refl. destruct (Nat.ltb_spec s (length act)); [|lia]. rewrite Bool.negb_true_iff, Ib, Pc. reflexivity.
  - injection E1 as <- <-. destruct (IH (S s) act r st E) as (r' & A & B & C & D & G); [intros i Hi; apply Hw; lia|intros i Hi; apply Hn; lia|]. exists r'. split; [exact A|]. split; [exact B|]. split; [intros i Hi; apply C; lia|]. split; [exact D|].
    intros i Hi. destruct (Nat.eq_dec i s) as [->|Ne]; [|apply G; lia]. rewrite Ev, C by lia. rewrite Hw by lia. exact Ev.
Qed.

(** Sums over the pieces. *)
Fixpoint psum (F : R -> R -> nat) (s : list R) : nat := match s with x0 :: ((x1 :: _) as s') => (F x0 x1 + psum F s')%nat | _ => 0%nat end.
Lemma psum_wide F : forall roots, asum (fun i => if nth i (wide roots) false then F (nth i roots 0) (nth (S i) roots 0) else 0%nat) (seq 0 (length (wide roots))) = psum (fun x y => if negb (tol_equal default_tol x y) then F x y else 0%nat) roots.
Proof.
  induction roots as [|x0 roots IH]; [reflexivity|]. destruct roots as [|x1 roots]; [reflexivity|]. cbn [wide]. change (psum ?G (x0 :: x1 :: roots)) with (G x0 x1 + psum G (x1 :: roots))%nat. cbv beta. rewrite <- IH. cbn [length seq]. rewrite <- seq_shift. cbn [asum fold_right nth].
  change (fold_right _ _ (map S ?s)) with (asum (fun i => if nth i (negb (tol_equal default_tol x0 x1) :: wide (x1 :: roots)) false then F (nth i (x0 :: x1 :: roots) 0) (nth i (x1 :: roots) 0) else 0%nat) (map S s)). rewrite asum_map. reflexivity.
Qed.
Lemma psum_dedup F : forall roots cs, roots <> [] -> StronglySorted Rle roots -> StronglySorted (fun u v => u + tiny < v) cs -> (forall x, In x cs <-> In x roots) ->
  psum (fun x y => if negb (tol_equal default_tol x y) then F x y else 0%nat) roots = psum F cs.
Proof.
  pose proof tiny_pos as T0. induction roots as [|x0 roots IH]; intros cs Hne So Sc Mem; [congruence|]. inversion So as [|? ? So' Fo]; subst. rewrite Forall_forall in Fo.
  destruct cs as [|c cs]; [exfalso; apply (Mem x0); left; reflexivity|]. inversion Sc as [|? ? Sc' Fc]; subst. rewrite Forall_forall in Fc.
  assert (Ec : c = x0).
  { assert (Hc : In c (x0 :: roots)) by (apply Mem; left; reflexivity). assert (Hx : In x0 (c :: cs)) by (apply Mem; left; reflexivity). destruct Hx as [Hx|Hx]; [exact Hx|]. destruct Hc as [Hc|Hc]; [symmetry; exact Hc|]. specialize (Fo c Hc). specialize (Fc x0 Hx). lra. }
  subst c. destruct roots as [|x1 roots].
  - destruct cs as [|c1 cs]; [reflexivity|]. exfalso. assert (H : In c1 [x0]) by (apply Mem; right; left; reflexivity). destruct H as [H|[]]. specialize (Fc c1 (or_introl eq_refl)). lra.
  - change (psum ?G (x0 :: x1 :: roots)) with (G x0 x1 + psum G (x1 :: roots))%nat. cbv beta. destruct (Req_dec x0 x1) as [Eq|Ne].
    + subst x1. replace (tol_equal default_tol x0 x0) with true by (symmetry; apply tol_equal_iff; rewrite Rminus_eq_0, Rabs_R0, tiny_tol; lra). cbn [negb Nat.add]. apply IH; [discriminate|exact So'|exact Sc|]. intros x. rewrite Mem. cbn [In]. tauto.
    + assert (L1 : x0 < x1) by (destruct (Fo x1 (or_introl eq_refl)); [assumption|contradiction]).
      assert (Mem' : forall x, In x cs <-> In x (x1 :: roots)).
      { intros x. split; intros H.
        - assert (H' : In x (x0 :: x1 :: roots)) by (apply Mem; right; exact H). destruct H' as [<-|H']; [specialize (Fc x0 H); lra|exact H'].
        - assert (H' : In x (x0 :: cs)) by (apply Mem; right; exact H). destruct H' as [<-|H']; [|exact H']. exfalso. inversion So' as [|? ? _ Fo']; subst. rewrite Forall_forall in Fo'. destruct H as [H|H]; [lra|]. specialize (Fo' x0 H). lra. }
      destruct cs as [|c1 cs]; [exfalso; apply (Mem' x1); left; reflexivity|].
      assert (Ec : c1 = x1).
      { assert (Hc : In c1 (x1 :: roots)) by (apply Mem'; left; reflexivity). assert (Hx : In x1 (c1 :: cs)) by (apply Mem'; left; reflexivity). destruct Hx as [Hx|Hx]; [exact Hx|]. destruct Hc as [Hc|Hc]; [symmetry; exact Hc|].
        inversion So' as [|? ? _ Fo']; subst. inversion Sc' as [|? ? _ Fc']; subst. rewrite Forall_forall in Fo', Fc'. specialize (Fo' c1 Hc). specialize (Fc' x1 Hx). lra. }
      subst c1. specialize (Fc x1 (or_introl eq_refl)). replace (tol_equal default_tol x0 x1) with false by (symmetry; apply tol_equal_niff; rewrite tiny_tol; cases_abs; lra). cbn [negb].
      change (psum F (x0 :: x1 :: cs)) with (F x0 x1 + psum F (x1 :: cs))%nat. f_equal. apply IH; [discriminate|exact So'|exact Sc'|exact Mem'].
Qed.
Fixpoint look (cs : list R) (signs : list (list bool)) (x : R) : list bool :=
  match cs, signs with c :: cs', s :: signs' => if Req_EM_T c x then s else look cs' signs' x | _, _ => [] end.
Lemma look_nth : forall cs signs i, StronglySorted (fun u v => u + tiny < v) cs -> (i < length cs)%nat -> length cs = S (length signs) -> look cs signs (nth i cs 0) = nth i signs [].
Proof.
  pose proof tiny_pos as T0. induction cs as [|c cs IH]; intros signs i So Hi Hl; [cbn in Hi; lia|]. inversion So as [|? ? So' Fo]; subst. rewrite Forall_forall in Fo. destruct signs as [|s signs]; [cbn in *; destruct cs; [destruct i; reflexivity|discriminate]|].
  cbn [look]. destruct i as [|i]; cbn [nth]; [destruct (Req_EM_T c c); [reflexivity|contradiction]|]. cbn [length] in *. destruct (Req_EM_T c (nth i cs 0)) as [E|_].
  - exfalso. specialize (Fo (nth i cs 0) ltac:(apply nth_In; lia)). lra.
  - apply IH; [exact So'|lia|lia].
Qed.
Lemma psum_total g : forall cs signs (F : R -> R -> nat), length cs = S (length signs) -> (forall i, (i < length signs)%nat -> F (nth i cs 0) (nth (S i) cs 0) = g (nth i signs [])) -> psum F cs = total g signs.
Proof.
  induction cs as [|c cs IH]; intros signs F Hl H; [discriminate|]. destruct signs as [|s signs]; [destruct cs; [reflexivity|discriminate]|]. destruct cs as [|c1 cs]; [discriminate|]. change (psum F (c :: c1 :: cs)) with (F c c1 + psum F (c1 :: cs))%nat.
  cbn [total fold_right]. pose proof (H 0%nat ltac:(cbn; lia)) as H0. cbn [nth] in H0. rewrite H0. f_equal. apply (IH signs F); [cbn [length] in *; lia|]. intros i Hi. apply (H (S i)). cbn. lia.
Qed.

Variables (cs : list R) (signs : list (list bool)).
Hypothesis HC : cut_into Z p k cs signs.
Lemma cut_unit x : cut Z p k x -> unit_interval x.
Proof. intros [->|[->|[U _]]]; [unfold unit_interval; lra|unfold unit_interval; lra|exact U]. Qed.
Lemma cs_nth i : (i < length cs)%nat -> unit_interval (nth i cs 0).
Proof. intros Hi. apply cut_unit, (ci_cuts _ _ _ _ _ HC), nth_In, Hi. Qed.
Lemma cs_apart x x' : cut Z p k x -> cut Z p k x' -> x = x' \/ tiny < Rabs (x - x').
Proof.
  intros Hx Hx'. apply (ci_cuts _ _ _ _ _ HC) in Hx. apply (ci_cuts _ _ _ _ _ HC) in Hx'. destruct (In_nth _ _ 0 Hx) as (i & Hi & <-). destruct (In_nth _ _ 0 Hx') as (j & Hj & <-). pose proof tiny_pos.
  destruct (Nat.lt_trichotomy i j) as [C|[->|C]]; [right; pose proof (sorted_nth _ 0 _ _ _ (ci_apart _ _ _ _ _ HC) (conj C Hj)) as Q|left; reflexivity|right; pose proof (sorted_nth _ 0 _ _ _ (ci_apart _ _ _ _ _ HC) (conj C Hi)) as Q]; cbv beta in Q; cases_abs; lra.
Qed.
Lemma piece_i base i r tid rs : (base <= 1)%nat -> (i < length signs)%nat -> M_BzReparam.ref_intervals Z lev [top base] [r] [/ 2 * (nth i cs 0 + nth (S i) cs 0)] tid = Ret rs -> exists ref, rs = [emplace r tid ref] /\ trues (iv_active ref) = cnt_layers (nth i signs []).
Proof.
  intros Hb Hi E. pose proof (ci_count _ _ _ _ _ HC) as Hl. destruct (ci_layers _ _ _ _ _ HC i Hi) as (ys & Ly & Se). pose proof (cs_nth i ltac:(lia)) as [U0 _]. pose proof (cs_nth (S i) ltac:(lia)) as [_ U1].
  pose proof (sorted_nth _ 0 _ i (S i) (ci_apart _ _ _ _ _ HC) ltac:(lia)) as Q. cbv beta in Q. pose proof tiny_pos. apply (piece_active base (nth i cs 0) (nth (S i) cs 0) ys (nth i signs []) r tid rs); try assumption; lra.
Qed.
Hypothesis Hord : (2 <= order)%nat.
Notation mdim := (mesh_dim 2 lev).
Lemma width_pow : (order * width = order ^ mdim)%nat.
Proof. unfold width, mesh_dim. destruct lev; cbn; lia. Qed.
Lemma flat_len evs : qs = [] -> reparam_events Z lev 2 order 1 [top 1] = Ret evs -> length evs = (total cnt_layers signs * order ^ mdim)%nat.
Proof.
  intros Eq E. pose proof (ci_count _ _ _ _ _ HC) as Hl. assert (Cu : forall x, In x cs <-> x = 0 \/ x = 1).
  { intros x. rewrite (ci_cuts _ _ _ _ _ HC). unfold cut. rewrite Eq. split; [intros [C|[C|(_ & q & [] & _)]]; auto|tauto]. }
  assert (Ecs : cs = [0; 1]).
  { pose proof (ci_apart _ _ _ _ _ HC) as So. pose proof tiny_pos. destruct cs as [|c0 [|c1 [|c2 cs']]].
    - exfalso. apply (Cu 0). auto.
    - exfalso. assert (H0 : In 0 [c0]) by (apply Cu; auto). assert (H1 : In 1 [c0]) by (apply Cu; auto). destruct H0 as [->|[]]. destruct H1 as [H1|[]]. lra.
    - inversion So as [|? ? _ F]; subst. inversion F as [|? ? H1 _]; subst. assert (A : c0 = 0 \/ c0 = 1) by (apply Cu; cbn; auto). assert (B : c1 = 0 \/ c1 = 1) by (apply Cu; cbn; auto). destruct A as [->| ->], B as [->| ->]; try lra. reflexivity.
    - exfalso. inversion So as [|? ? So' F]; subst. inversion F as [|? ? H1 F']; subst. inversion F' as [|? ? H2 _]; subst. inversion So' as [|? ? _ F'']; subst. inversion F'' as [|? ? H3 _]; subst.
      assert (A : c0 = 0 \/ c0 = 1) by (apply Cu; cbn; auto). assert (B : c1 = 0 \/ c1 = 1) by (apply Cu; cbn; auto). assert (C : c2 = 0 \/ c2 = 1) by (apply Cu; cbn; auto). destruct A as [->| ->], B as [->| ->], C as [->| ->]; lra. }
  assert (Ls : length signs = 1%nat) by (rewrite Ecs in Hl; cbn in Hl; lia).
  unfold reparam_events in E. cbn [map Nat.eqb repeat] in E. apply bind_inv in E as (refs & Er & E). replace (/ 2) with (/ 2 * (nth 0 cs 0 + nth 1 cs 0)) in Er by (rewrite Ecs; cbn; lra).
  destruct (piece_i 1 0 [] (tp_const 1 0%nat) refs (le_n 1) ltac:(lia) Er) as (ref & -> & Pc).
  rewrite (foreach_len _ (fun _ => (cnt_layers (nth 0 signs []) * width)%nat) _ _ E).
  - rewrite asum_const, L_TensorNat.tp_all_length, tp_size_const, Nat.pow_1_r. rewrite <- width_pow. destruct signs as [|s0 [|]]; try discriminate Ls. cbn [total fold_right nth]. lia.
  - intros ptid e Hp Ee. apply in_tp_all in Hp as [Lp _]. destruct ptid as [|j [|]]; try discriminate Lp. cbn [map] in Ee. rewrite <- Pc. eapply top_len; [|exact Ee]. reflexivity.
Qed.
Lemma split_len evs : reparam_events Z lev 2 order 0 [bas; top 0] = Ret evs -> length evs = (total cnt_layers signs * order ^ mdim)%nat.
Proof.
  intros E. unfold reparam_events in E. cbn [map Nat.eqb] in E. apply bind_inv in E as (refs & Er & E).
  change (M_BzReparam.ref_intervals Z lev [bas; top 0] [[]; []] [] []) with
    (iv <- M_BzReparam.all_intervals Z bas [] ;; st <- foldM (fun (st : list bool * list refmap) i => v <- M_Mesh.at_ (fst st) i ;; if v : bool then x0 <- M_Mesh.at_ (ri_roots (iv_ri iv)) i ;; x1 <- M_Mesh.at_ (ri_roots (iv_ri iv)) (S i) ;; rs <- M_BzReparam.ref_intervals Z lev [top 0] (snd st) (ins_at [] 0 (/ 2 * (x0 + x1))) (ins_at [] 0 i) ;;
    b <- all_inactive [top 0] rs (ins_at [] 0 i) ;; Ret (set_at (fst st) i (negb b), rs) else Ret st) (seq 0 (length (iv_active iv))) (iv_active iv, [[]]) ;; Ret (emplace [] [] (mk_iv (iv_ri iv) [] (fst st)) :: snd st)) in Er.
  apply bind_inv in Er as (iv & Ei & Er). destruct (base_roots Z HZ p k HA cs_apart iv Ei) as (So & Mem & Ea & _). set (roots := ri_roots (iv_ri iv)) in *. apply bind_inv in Er as (st & Est & Er).
  pose proof (ci_count _ _ _ _ _ HC) as Hl. set (F := fun x (_ : R) => cnt_layers (look cs signs x)).
  assert (Mc : forall x, In x cs <-> In x roots) by (intros x; rewrite Mem; apply (ci_cuts _ _ _ _ _ HC)).
  assert (Fi : forall i, (i < length signs)%nat -> F (nth i cs 0) (nth (S i) cs 0) = cnt_layers (nth i signs [])) by (intros i Hi; unfold F; rewrite look_nth; [reflexivity|apply HC|lia|lia]).
  destruct (fold_count roots F) with (n := length (iv_active iv)) (s := 0%nat) (act := iv_active iv) (r := @nil (list nat * intervals)) (st := st) as (r' & A & B & _ & _ & D).
  - intros i Hi r tid rs E1. destruct (wide_nth roots i Hi) as [Hlen Hw]. assert (I0 : In (nth i roots 0) cs) by (apply Mc, nth_In; lia). assert (I1 : In (nth (S i) roots 0) cs) by (apply Mc, nth_In; lia).
    destruct (In_nth _ _ 0 I0) as (j & Hj & Ej). destruct (In_nth _ _ 0 I1) as (j' & Hj' & Ej'). assert (Hle : nth i roots 0 <= nth (S i) roots 0) by (apply (sorted_nth _ 0 _ i (S i) So); lia).
    assert (Ejj : j' = S j).
    { pose proof tiny_pos. destruct (Nat.lt_trichotomy j' j) as [C|[C|C]].
      - pose proof (sorted_nth _ 0 _ _ _ (ci_apart _ _ _ _ _ HC) (conj C Hj)) as Q. cbv beta in Q. rewrite Ej, Ej' in Q. lra.
      - subst j'. rewrite <- Ej, Ej', Rminus_eq_0, Rabs_R0 in Hw. lra.
      - destruct (Nat.eq_dec j' (S j)) as [|Ne]; [assumption|]. exfalso. pose proof (sorted_nth _ 0 _ j (S j) (ci_apart _ _ _ _ _ HC) ltac:(lia)) as Q1. pose proof (sorted_nth _ 0 _ (S j) j' (ci_apart _ _ _ _ _ HC) ltac:(lia)) as Q2. cbv beta in Q1, Q2.
        assert (Im : In (nth (S j) cs 0) roots) by (apply Mc, nth_In; lia). assert (N0 : nth_error roots i = Some (nth i roots 0)) by (apply nth_error_nth'; lia). assert (N1 : nth_error roots (S i) = Some (nth (S i) roots 0)) by (apply nth_error_nth'; lia).
        destruct (sorted_gap roots i _ _ So N0 N1) as [_ Hg]. destruct (Hg _ Im); lra. }
    subst j'. rewrite <- Ej, <- Ej' in *. rewrite Fi by lia. apply (piece_i 0 j r tid rs); [lia|lia|exact E1].
  - exact Est.
  - intros i _. rewrite Ea. reflexivity.
  - intros i _. reflexivity.
  - rewrite A in Er. injection Er as <-.
    change (bz_process Z lev order [bas; top 0] [emplace [] [] (mk_iv (iv_ri iv) [] (fst st)); r'] [] [] []) with
      (foreach (fun i => v <- M_Mesh.at_ (fst st) i ;; if v : bool then x0 <- M_Mesh.at_ roots i ;; x1 <- M_Mesh.at_ roots (S i) ;;
         foreach (fun j => bz_process Z lev order [top 0] [r'] [x0 + (x1 - x0) * node01 (z_cheb Z) order j] [i] [j]) (seq 0 order) else Ret []) (seq 0 (length (fst st)))) in E.
    rewrite (foreach_len _ (fun i => ((if nth i (wide roots) false then F (nth i roots 0%R) (nth (S i) roots 0%R) else 0) * order ^ mdim)%nat) _ _ E).
    + rewrite asum_mul. f_equal. rewrite B, Ea, psum_wide. rewrite (psum_dedup F roots cs); [apply psum_total; [exact Hl|exact Fi]| |exact So|apply HC|exact Mc].
      intros E0. assert (In 0 roots) by (apply Mem; left; reflexivity). rewrite E0 in H. destruct H.
    + intros i e Hi Ee. apply in_seq in Hi. specialize (D i ltac:(lia)). apply bind_inv in Ee as (v & Ev & Ee). apply (at_nth false) in Ev as (_ & Ev & _). destruct (nth i (wide roots) false).
      * destruct D as (D1 & ref & D2 & D3). destruct v.
        -- apply bind_inv in Ee as (x0 & _ & Ee). apply bind_inv in Ee as (x1 & _ & Ee). rewrite (foreach_len _ (fun _ => (trues (iv_active ref) * width)%nat) _ _ Ee).
           ++ rewrite asum_const, seq_length, D3, <- width_pow. lia.
           ++ intros j ej _ Ej. eapply top_len; [exact D2|exact Ej].
        -- injection Ee as <-. destruct (F (nth i roots 0) (nth (S i) roots 0)) as [|c]; [reflexivity|]. exfalso. assert (nth i (fst st) false = true) by (apply D1; lia). congruence.
      * rewrite D in Ev. subst v. injection Ee as <-. reflexivity.
Qed.
Lemma events_len evs : z_empty Z p = false -> bz_events Z lev 2 order [p] = Ret evs -> length evs = (total cnt_layers signs * order ^ mdim)%nat.
Proof.
  intros Ez E. unfold bz_events in E. apply bind_inv in E as (r & Er & E). destruct (build_two Z p k HA r Ez Er) as [[Eq ->]|[_ ->]]; cbn [fst snd] in E; [apply flat_len; assumption|apply split_len; exact E].
Qed.
(** No full cell is added. *)
Lemma process_inserts : forall lvs refs pt tid ptid evs, bz_process Z lev order lvs refs pt tid ptid = Ret evs -> Forall (fun e => match e with Insert _ _ _ => True | _ => False end) evs.
Proof.
  induction lvs as [|l up IH]; intros refs pt tid ptid evs E; [injection E as <-; constructor|]. destruct refs as [|r rup]; [injection E as <-; constructor|]. cbn [bz_process] in E. apply bind_inv in E as (iv & _ & E). apply Forall_forall. intros e He.
  destruct (foreach_in _ _ _ _ E He) as (i & ex & Hi & Ex & Hex). apply bind_inv in Ex as (v & _ & Ex). destruct v; [|injection Ex as <-; destruct Hex]. apply bind_inv in Ex as (x0 & _ & Ex). apply bind_inv in Ex as (x1 & _ & Ex).
  destruct (match up with [] => lev | _ => false end); [injection Ex as <-; destruct Hex as [<-|[]]; exact Logic.I|]. destruct (foreach_in _ _ _ _ Ex Hex) as (j & ex' & _ & Ex' & Hex'). destruct up as [|u up]; [injection Ex' as <-; destruct Hex' as [<-|[]]; exact Logic.I|].
  apply IH in Ex'. rewrite Forall_forall in Ex'. apply Ex'. exact Hex'.
Qed.
Lemma events_inserts evs : z_empty Z p = false -> bz_events Z lev 2 order [p] = Ret evs -> Forall (fun e => match e with Insert _ _ _ => True | _ => False end) evs.
Proof.
  intros Ez E. unfold bz_events in E. apply bind_inv in E as (r & Er & E). assert (Hs : snd r <> []) by (destruct (build_two Z p k HA r Ez Er) as [[_ ->]|[_ ->]]; discriminate). destruct (snd r) as [|l up]; [congruence|]. unfold reparam_events in E.
  destruct (snd (fst r) =? 0)%nat; apply bind_inv in E as (refs & _ & E); [exact (process_inserts _ _ _ _ _ _ E)|]. apply Forall_forall. intros e He. destruct (foreach_in _ _ _ _ E He) as (i & ex & Hi & Ex & Hex). apply process_inserts in Ex. rewrite Forall_forall in Ex. apply Ex. exact Hex.
Qed.
End Count.
