(** Lemmas for the general reparameterization: intervals. *)
From Coq Require Import Reals List Lia Lra Permutation Sorted Arith ZArith.
From Verif Require Import M_General S_General S_Mesh S_Roots L_Real L_BBox L_Point L_Roots P_Roots.
Import ListNotations.
Local Close Scope Z_scope. Local Close Scope nat_scope. Local Open Scope R_scope.

Lemma default_tol_pos : 0 < default_tol < 1.
Proof.
  unfold default_tol, M_Domain.eps. assert (H : 16 < 2 ^ 52) by (replace (2 ^ 52) with (2 ^ 4 * 2 ^ 48) by (rewrite <- pow_add; reflexivity); assert (1 < 2 ^ 48) by (apply Rlt_pow_R1; [lra|lia]); simpl (2 ^ 4); lra).
  assert (0 < / 2 ^ 52) by (apply Rinv_0_lt_compat; lra). split; [lra|]. apply (Rmult_lt_reg_r (2 ^ 52)); [lra|]. rewrite Rmult_assoc, Rinv_l by lra. lra.
Qed.
Definition ent (L : list (R * Z)) : roots_intervals := mk_ri (map fst L) (map snd L) L.
Lemma add_ent A B : Forall (fun e => (-1 <= snd e)%Z) B -> add_roots (ent A) B = Ret (ent (A ++ B)).
Proof. intros H. rewrite add_roots_ok by exact H. unfold ent. cbn. rewrite !map_app. reflexivity. Qed.
Definition tagged (f : nat -> list R) (l : list nat) : list (R * Z) := flat_map (fun i => map (fun r => (r, Z.of_nat i)) (f i)) l.
Lemma foldM_add (g : nat -> outcome (list R)) (f : nat -> list R) : forall l A, (forall i, In i l -> g i = Ret (f i)) ->
  foldM (fun ri i => roots <- g i ;; add_roots ri (map (fun r => (r, Z.of_nat i)) roots)) l (ent A) = Ret (ent (A ++ tagged f l)).
Proof.
  induction l as [|i l IH]; intros A H; cbn [foldM]; [unfold tagged; cbn [flat_map]; rewrite app_nil_r; reflexivity|].
  rewrite (H i) by (left; reflexivity). cbn [bind]. rewrite add_ent by (rewrite Forall_forall; intros e He; apply in_map_iff in He as (r & <- & _); cbn [snd]; lia).
  cbn [bind]. rewrite IH by (intros; apply H; right; assumption). unfold tagged. cbn [flat_map]. rewrite app_assoc. reflexivity.
Qed.

Section WithOracles.
Variables (O : oracles) (range : nat).
Hypothesis HO : sound O range.

Definition X0 (l : obj) := lo (l_box l) (l_dir l).
Definition X1 (l : obj) := hi (l_box l) (l_dir l).
Record wf_obj (l : obj) : Prop := mk_wf {
  wf_free : length (l_free l) = range;
  wf_min : length (bmin (l_box l)) = range; wf_max : length (bmax (l_box l)) = range;
  wf_dir : (l_dir l < range)%nat; wf_psi : (l_count l <= length (l_psi l))%nat;
  wf_count : l_dim l <> 1%nat -> (l_count l <= 2)%nat; wf_S : l_S l = true -> l_dim l <> 1%nat;
  wf_ext : default_tol < extent (l_box l) (l_dir l) }.
Lemma tol_ok l : wf_obj l -> 0 <= compute_tolerance l < X1 l - X0 l.
Proof.
  intros W. pose proof (wf_ext l W) as H. unfold compute_tolerance, tol_update, X1, X0. fold (extent (l_box l) (l_dir l)). pose proof default_tol_pos as D.
  set (e := extent (l_box l) (l_dir l)) in *. split; [apply Rle_trans with default_tol; [lra|apply Rmax_l]|]. apply Rmax_lub_lt; [exact H|]. rewrite <- (Rmult_1_l e) at 2. apply Rmult_lt_compat_r; lra.
Qed.
Lemma x_lt l : wf_obj l -> X0 l < X1 l.
Proof. intros W. pose proof (tol_ok l W). lra. Qed.
Definition inside (l : obj) (r : R) : Prop := X0 l <= r <= X1 l.
Definition mids (l : obj) (mid : list (R * Z)) : Prop := Forall (fun e => inside l (fst e) /\ (0 <= snd e < Z.of_nat (l_count l))%Z) mid.
Definition full_list (l : obj) (mid : list (R * Z)) : list (R * Z) := (X0 l, (-1)%Z) :: mid ++ [(X1 l, (-1)%Z)].
Definition good_ri (l : obj) (ri : roots_intervals) : Prop := exists mid, ri = ent (full_list l mid) /\ mids l mid.
Definition good_iv (l : obj) (iv : intervals) : Prop :=
  good_ri l (iv_ri iv) /\ length (iv_active iv) = (if l_S l then 0 else length (ri_roots (iv_ri iv)) - 1)%nat.
Lemma full_len l mid : length (full_list l mid) = (length mid + 2)%nat.
Proof. unfold full_list. cbn [length]. rewrite app_length. cbn [length]. lia. Qed.
Lemma good_inside l ri : wf_obj l -> good_ri l ri -> Forall (inside l) (ri_roots ri).
Proof.
  intros W (mid & -> & M). pose proof (x_lt l W). cbn [ent ri_roots]. unfold full_list. cbn [map fst]. rewrite map_app. constructor; [unfold inside; lra|]. apply Forall_app. split.
  - rewrite Forall_forall. intros r Hr. apply in_map_iff in Hr as (e & <- & He). apply (proj1 (Forall_forall _ _) M) in He. apply He.
  - constructor; [unfold inside; cbn [fst]; lra|constructor].
Qed.

Lemma level_mids l mid : mids l mid -> levelset_entries mid = mid.
Proof. unfold levelset_entries. induction 1 as [|e m [H1 H2] _ IH]; [reflexivity|]. cbn [filter]. destruct (Z.eqb_spec (snd e) (-1)); [lia|]. cbn [negb]. rewrite IH. reflexivity. Qed.
Lemma mids_in l mid : mids l mid -> Forall (root_in (X0 l) (X1 l)) mid.
Proof. intros H. eapply Forall_impl; [|exact H]. intros e [H1 H2]. split; [exact H1|]. split; [lia|intros; lia]. Qed.
Lemma forall2_snd tol (a b : list (R * Z)) : Forall2 (moved_within tol) a b -> map snd a = map snd b.
Proof. induction 1 as [|x y a b [H _] _ IH]; [reflexivity|]. cbn [map]. rewrite H, IH. reflexivity. Qed.

Lemma adjust_full l ends mid : wf_obj l -> mids l mid -> Permutation ends [(X0 l, (-1)%Z); (X1 l, (-1)%Z)] -> forall entries, Permutation entries (ends ++ mid) ->
  exists mid', adjust_roots (o_sort O) (compute_tolerance l) (X0 l) (X1 l) (ent entries) = Ret (ent (full_list l mid')) /\ mids l mid' /\ Permutation (map snd mid') (map snd mid).
Proof.
  intros W M PE entries P. pose proof (tol_ok l W) as T. pose proof (x_lt l W) as L.
  assert (HE : Forall (root_in (X0 l) (X1 l)) entries).
  { eapply Permutation_Forall; [symmetry; exact P|]. apply Forall_app. split; [|apply mids_in, M]. eapply Permutation_Forall; [symmetry; exact PE|].
    constructor; [|constructor; [|constructor]]; (split; [cbn [fst]; lra|split; [cbn [snd]; lia|intros _; cbn [fst]; auto]]). }
  destruct (C69_adjust_roots (o_sort O) (compute_tolerance l) (X0 l) (X1 l) entries (s_sort O range HO) T HE) as (ri & ri' & first & mid' & last & s & E1 & E2 & Ids & Er & Ef & _ & Hb & F & G & PS & _ & MV).
  change ri_empty with (ent []) in E1. rewrite (add_ent [] entries) in E1 by (eapply Forall_impl; [|exact HE]; intros e He; apply He). cbn [app] in E1. injection E1 as E1. rewrite E1.
  assert (I0 : In (X0 l, (-1)%Z) entries) by (apply (Permutation_in _ (Permutation_sym P)); apply in_or_app; left; apply (Permutation_in _ (Permutation_sym PE)); left; reflexivity).
  assert (I1 : In (X1 l, (-1)%Z) entries) by (apply (Permutation_in _ (Permutation_sym P)); apply in_or_app; left; apply (Permutation_in _ (Permutation_sym PE)); right; left; reflexivity).
  rewrite (proj1 F I0), (proj1 G I1) in Ids. cbn [app] in Ids. fold (full_list l mid') in Ids.
  exists mid'. assert (PM : Permutation s mid).
  { rewrite PS. assert (K : forall a b, Permutation a b -> Permutation (levelset_entries a) (levelset_entries b)).
    { clear. unfold levelset_entries. induction 1; cbn [filter]; [constructor| | |eapply perm_trans; eassumption].
      - destruct (negb _); [apply perm_skip; assumption|assumption].
      - destruct (negb (snd y =? -1)%Z), (negb (snd x =? -1)%Z); try reflexivity. apply perm_swap. }
    rewrite (K _ _ P). unfold levelset_entries. rewrite filter_app. fold (levelset_entries mid). rewrite (level_mids l mid M).
    assert (Hn : filter (fun e : R * Z => negb (snd e =? -1)%Z) ends = []).
    { assert (Hs := K _ _ PE). unfold levelset_entries in Hs. cbn [filter snd Z.eqb negb] in Hs. apply Permutation_sym, Permutation_nil in Hs. exact Hs. }
    rewrite Hn. reflexivity. }
  split; [|split].
  - rewrite E2. destruct ri' as [a b c]. cbn [ri_roots ri_func_ids ri_roots_ids] in *. subst. reflexivity.
  - rewrite Ids in Er. rewrite Er in Hb. unfold full_list in Hb. cbn [map fst] in Hb. rewrite map_app in Hb. inversion Hb as [|? ? _ Hb']; subst. apply Forall_app in Hb' as [Hb' _].
    assert (Hsn : Forall (fun k => (0 <= k < Z.of_nat (l_count l))%Z) (map snd mid')).
    { rewrite <- (forall2_snd _ _ _ MV). rewrite Forall_forall. intros k Hk. apply in_map_iff in Hk as (e & <- & He). apply (Permutation_in _ PM) in He. apply (proj1 (Forall_forall _ _) M) in He. apply He. }
    unfold mids. rewrite Forall_forall in *. intros e He. split; [apply Hb'; apply in_map; exact He|apply Hsn; apply in_map; exact He].
  - rewrite <- (forall2_snd _ _ _ MV). apply Permutation_map. exact PM.
Qed.
Lemma adjust_mid l mid : wf_obj l -> mids l mid ->
  exists mid', adjust_roots (o_sort O) (compute_tolerance l) (X0 l) (X1 l) (ent mid) = Ret (ent mid') /\ Forall (inside l) (map fst mid') /\ length mid' = length mid.
Proof.
  intros W M. pose proof (tol_ok l W) as T. pose proof (mids_in l mid M) as HE.
  destruct (C69_adjust_roots (o_sort O) (compute_tolerance l) (X0 l) (X1 l) mid (s_sort O range HO) T HE) as (ri & ri' & first & mid' & last & s & E1 & E2 & Ids & Er & Ef & _ & Hb & F & G & PS & _ & MV).
  change ri_empty with (ent []) in E1. rewrite (add_ent [] mid) in E1 by (eapply Forall_impl; [|exact HE]; intros e He; apply He). cbn [app] in E1. injection E1 as E1. rewrite E1.
  assert (N : forall x, ~ In (x, (-1)%Z) mid) by (intros x Hx; apply (proj1 (Forall_forall _ _) M) in Hx; destruct Hx as [_ Hx]; cbn [snd] in Hx; lia).
  rewrite (proj2 F (N _)), (proj2 G (N _)), app_nil_r in Ids. cbn [app] in Ids. exists mid'. split; [|split].
  - rewrite E2. destruct ri' as [a b c]. cbn [ri_roots ri_func_ids ri_roots_ids] in *. subst. reflexivity.
  - rewrite Ids in Er. rewrite Er in Hb. exact Hb.
  - rewrite (level_mids l mid M) in PS. rewrite <- (Permutation_length PS). rewrite <- (map_length snd), <- (forall2_snd _ _ _ MV), map_length. reflexivity.
Qed.

Lemma psi_at_ok psi i : (i < length psi)%nat -> exists p, psi_at psi i = Ret p.
Proof. intros H. unfold psi_at. destruct (nth_error psi i) eqn:E; [eauto|]. apply nth_error_None in E. lia. Qed.
Lemma compute_roots_ok l pt i : wf_obj l -> (i < l_count l)%nat -> exists rs, compute_roots O l pt i = Ret rs /\ Forall (inside l) rs.
Proof.
  intros W Hi. unfold compute_roots. destruct (psi_at_ok (l_psi l) i) as [p Ep]; [pose proof (wf_psi l W); lia|]. rewrite Ep. cbn [bind]. eexists. split; [reflexivity|].
  pose proof (x_lt l W). apply (s_roots O range HO). unfold X0, X1 in *. lra.
Qed.
Lemma tagged_mids l (f : nat -> list R) n : (n <= l_count l)%nat -> (forall i, (i < n)%nat -> Forall (inside l) (f i)) -> mids l (tagged f (seq 0 n)).
Proof.
  intros Hn H. unfold mids. rewrite Forall_forall. intros e He. apply in_flat_map in He as (i & Hi & He). apply in_seq in Hi. apply in_map_iff in He as (r & <- & Hr). cbn [fst snd].
  split; [|lia]. specialize (H i). rewrite Forall_forall in H. apply H; [lia|exact Hr].
Qed.
(** A function given by its values below n. *)
Lemma choose_fun {A} (P : nat -> A -> Prop) (d : A) n : (forall i, (i < n)%nat -> exists x, P i x) -> exists f, forall i, (i < n)%nat -> P i (f i).
Proof.
  induction n as [|n IH]; intros H; [exists (fun _ => d); intros; lia|]. destruct IH as [f Hf]; [intros; apply H; lia|]. destruct (H n) as [x Hx]; [lia|].
  exists (fun i => if Nat.eqb i n then x else f i). intros i Hi. destruct (Nat.eqb_spec i n) as [->|]; [exact Hx|apply Hf; lia].
Qed.
Lemma signs_ok l : wf_obj l -> forall n i pt, (i + n <= l_count l)%nat -> length pt = range -> exists b pt', signs_okay O l n i pt = Ret (b, pt') /\ length pt' = range.
Proof.
  intros W. induction n as [|n IH]; intros i pt Hi Hp; cbn [signs_okay]; [eauto|]. destruct (psi_at_ok (l_psi l) i) as [p Ep]; [pose proof (wf_psi l W); lia|]. rewrite Ep. cbn [bind].
  assert (Hl : length (set_psi_bounds l p pt) = range).
  { unfold set_psi_bounds, restrict. rewrite map3_length; rewrite ?seq_length; pose proof (wf_free l W); congruence. }
  destruct (if Rltb 0 (o_phi O (set_psi_bounds l p pt)) then _ else _); [apply IH; [lia|exact Hl]|eauto].
Qed.
Lemma active_ok l : wf_obj l -> forall roots pt, length pt = range -> exists act, active_loop O l roots pt = Ret act /\ length act = (length roots - 1)%nat.
Proof.
  intros W. induction roots as [|x0 roots IH]; intros pt Hp; [exists []; split; reflexivity|]. destruct roots as [|x1 roots]; [exists []; split; reflexivity|].
  assert (E : exists b pt', check_active_interval O l pt x0 x1 = Ret (b, pt') /\ length pt' = range).
  { unfold check_active_interval. destruct (tol_equal _ _ _); [eauto|]. apply signs_ok; [exact W|lia|]. rewrite set_at_length. exact Hp. }
  destruct E as (b & pt' & E & Hp'). destruct (IH pt' Hp') as (act & Ea & La). exists (b :: act). cbn [active_loop] in *. rewrite E. cbn [bind fst snd]. rewrite Ea. cbn [bind]. split; [reflexivity|].
  cbn [length] in *. lia.
Qed.
Lemma all_ok l pt : wf_obj l -> length pt = range -> exists iv, compute_all_intervals O l pt = Ret iv /\ good_iv l iv.
Proof.
  intros W Hp. unfold compute_all_intervals. change ri_empty with (ent []). fold (X0 l) (X1 l). rewrite add_ent by (repeat constructor; cbn [snd]; lia). cbn [bind app].
  destruct (choose_fun (fun i rs => compute_roots O l pt i = Ret rs /\ Forall (inside l) rs) [] (l_count l)) as [f Hf]; [intros; apply compute_roots_ok; assumption|].
  rewrite (foldM_add (compute_roots O l pt) f) by (intros i Hi; apply in_seq in Hi; apply Hf; lia). cbn [bind].
  assert (M : mids l (tagged f (seq 0 (l_count l)))) by (apply tagged_mids; [lia|intros; apply Hf; assumption]).
  destruct (adjust_full l _ _ W M (Permutation_refl _) _ (Permutation_refl _)) as (mid & E & Hm & _). cbn [app] in E. change ([(X0 l, (-1)%Z); (X1 l, (-1)%Z)] ++ ?x) with ((X0 l, (-1)%Z) :: (X1 l, (-1)%Z) :: x). rewrite E. cbn [bind].
  destruct (l_S l) eqn:ES.
  - eexists. split; [reflexivity|]. split; [exists mid; split; [reflexivity|exact Hm]|]. rewrite ES. reflexivity.
  - unfold assert_. cbn [ent ri_roots]. rewrite map_length, full_len. destruct (Nat.ltb_spec 1 (length mid + 2)); [|lia].
    destruct (active_ok l W (map fst (full_list l mid)) pt Hp) as (act & Ea & La). rewrite Ea. cbn [bind]. eexists. split; [reflexivity|]. split; [exists mid; split; [reflexivity|exact Hm]|].
    rewrite ES. cbn [iv_active iv_ri ent ri_roots]. exact La.
Qed.

(** Number of entries with a given id. *)
Definition cnt (i : nat) (L : list (R * Z)) : nat := length (filter (fun k => (k =? Z.of_nat i)%Z) (map snd L)).
Lemma cnt_perm i a b : Permutation (map snd a) (map snd b) -> cnt i a = cnt i b.
Proof.
  unfold cnt. generalize (map snd a) (map snd b). intros x y P. apply Permutation_length. clear - P. induction P; cbn [filter]; [constructor| | |eapply perm_trans; eassumption].
  - destruct (x =? Z.of_nat i)%Z; [apply perm_skip; assumption|assumption].
  - destruct (x =? Z.of_nat i)%Z, (y =? Z.of_nat i)%Z; try reflexivity. apply perm_swap.
Qed.
Lemma cnt_full l mid i : cnt i (full_list l mid) = cnt i mid.
Proof. unfold cnt, full_list. cbn [map snd filter]. destruct (Z.eqb_spec (-1) (Z.of_nat i)); [lia|]. rewrite map_app, filter_app, app_length. cbn [map snd filter]. destruct (Z.eqb_spec (-1) (Z.of_nat i)); [lia|]. cbn [length]. lia. Qed.
Lemma cnt_sum n : forall mid, Forall (fun e : R * Z => (0 <= snd e < Z.of_nat n)%Z) mid -> list_sum (map (fun i => cnt i mid) (seq 0 n)) = length mid.
Proof.
  intros mid H. induction H as [|e mid He _ IH]; [unfold cnt; cbn [map filter length]; rewrite <- (repeat_length 0%nat n) at 1; clear; induction (seq 0 _) as [|a s IHs]; [reflexivity|exact IHs]|].
  transitivity (S (list_sum (map (fun i => cnt i mid) (seq 0 n)))); [|cbn [length]; rewrite IH; reflexivity].
  assert (K : forall m a, (Z.of_nat a <= snd e < Z.of_nat (a + m))%Z -> list_sum (map (fun i => cnt i (e :: mid)) (seq a m)) = S (list_sum (map (fun i => cnt i mid) (seq a m)))).
  { assert (C : forall i, cnt i (e :: mid) = if (snd e =? Z.of_nat i)%Z then S (cnt i mid) else cnt i mid) by (intros i; unfold cnt; cbn [map filter]; destruct (snd e =? Z.of_nat i)%Z; reflexivity).
    induction m as [|m IHm]; intros a Ha; [lia|]. cbn [seq map]. change (list_sum (?x :: ?y)) with (x + list_sum y)%nat. rewrite C. destruct (Z.eqb_spec (snd e) (Z.of_nat a)).
    - assert (N : forall m' b, (a < b)%nat -> list_sum (map (fun i => cnt i (e :: mid)) (seq b m')) = list_sum (map (fun i => cnt i mid) (seq b m'))).
      { induction m' as [|m' IHm']; intros b Hb; [reflexivity|]. cbn [seq map]. change (list_sum (?x :: ?y)) with (x + list_sum y)%nat. rewrite C. destruct (Z.eqb_spec (snd e) (Z.of_nat b)); [lia|]. rewrite IHm' by lia. reflexivity. }
      rewrite N by lia. reflexivity.
    - rewrite IHm by lia. lia. }
  apply K. cbn. lia.
Qed.
Lemma mids_cnt_sum l mid : mids l mid -> list_sum (map (fun i => cnt i mid) (seq 0 (l_count l))) = length mid.
Proof. intros H. apply cnt_sum. eapply Forall_impl; [|exact H]. intros e He. apply He. Qed.

Lemma wanted_cnt (L : list (R * Z)) i : length (map fst (filter (fun e => (snd e =? Z.of_nat i)%Z) L)) = cnt i L.
Proof. unfold cnt. rewrite map_length. induction L as [|e L IH]; [reflexivity|]. cbn [map filter]. destruct (snd e =? Z.of_nat i)%Z; cbn [length]; rewrite IH; reflexivity. Qed.
Lemma ref_roots_ok l mid i : wf_obj l -> mids l mid -> l_dim l <> 1%nat -> (i < l_count l)%nat ->
  exists rs, get_ref_intervals_roots (ent (full_list l mid)) (Z.of_nat i) = Ret rs /\ length rs = cnt i mid /\ Forall (inside l) rs.
Proof.
  intros W M Hd Hi. pose proof (wf_count l W Hd) as H2. pose proof (C71_reference_roots_partial (ent (full_list l mid)) (Z.of_nat i) eq_refl eq_refl) as C. cbv zeta in C. destruct C as (C1 & C2 & _).
  cbn [ent ri_roots_ids ri_roots] in *. set (w := map fst (filter (fun e => (snd e =? Z.of_nat i)%Z) (full_list l mid))) in *.
  assert (Hw : length w = cnt i mid) by (unfold w; rewrite wanted_cnt, cnt_full; reflexivity).
  destruct w as [|x w1] eqn:Ew.
  - exists []. split; [apply C1; reflexivity|]. split; [exact Hw|constructor].
  - assert (Hm : (1 <= length mid)%nat). { destruct mid; [cbn in Hw; discriminate|cbn; lia]. }
    destruct (nth_error (map fst (full_list l mid)) (Z.to_nat (Z.of_nat i))) as [y|] eqn:Ey; [|apply nth_error_None in Ey; rewrite map_length, full_len in Ey; lia].
    destruct (C2 ltac:(discriminate) y ltac:(lia) eq_refl) as [C _]. eexists. split; [exact C|]. rewrite repeat_length. split; [exact Hw|]. apply nth_error_In in Ey.
    pose proof (good_inside l (ent (full_list l mid)) W (ex_intro _ mid (conj eq_refl M))) as G. cbn [ent ri_roots] in G. rewrite Forall_forall in *. intros z Hz. apply repeat_spec in Hz. subst z. apply G. exact Ey.
Qed.
Lemma rsort_in x l : In x (rsort l) -> In x l.
Proof.
  assert (I : forall y l z, In z (rinsert y l) -> z = y \/ In z l).
  { intros y. induction l0 as [|a l0 IH]; intros z Hz; cbn [rinsert] in Hz; [destruct Hz as [<- | []]; auto|]. destruct (Rleb y a); [destruct Hz as [<- | Hz]; auto|]. destruct Hz as [<- | Hz]; [right; left; reflexivity|]. apply IH in Hz as [->|Hz]; [auto|right; right; exact Hz]. }
  induction l as [|a l IH]; intros H; [exact H|]. cbn [rsort] in H. apply I in H as [->|H]; [left; reflexivity|right; apply IH; exact H].
Qed.
Lemma similar_roots_ok l ref mid i pt : wf_obj l -> iv_ri ref = ent (full_list l mid) -> mids l mid -> l_dim l <> 1%nat -> (i < l_count l)%nat ->
  exists rs, compute_similar_roots O l ref i pt = Ret rs /\ length rs = cnt i mid /\ Forall (inside l) rs.
Proof.
  intros W E M Hd Hi. unfold compute_similar_roots. rewrite E. destruct (ref_roots_ok l mid i W M Hd Hi) as (rr & Er & Lr & Fr). rewrite Er. cbn [bind].
  destruct rr as [|front rr]; [exists []; split; [reflexivity|split; [exact Lr|constructor]]|]. destruct (compute_roots_ok l pt i W Hi) as (rs0 & E0 & F0). rewrite E0. cbn [bind].
  fold (X0 l) (X1 l). set (roots := filter _ rs0). assert (Fo : Forall (inside l) roots) by (unfold roots; rewrite Forall_forall in *; intros x Hx; apply filter_In in Hx; apply F0, Hx).
  destruct (Nat.eqb_spec (length roots) (length (front :: rr))); [exists roots; split; [reflexivity|split; [lia|exact Fo]]|].
  destruct (Nat.ltb_spec (length (front :: rr)) (length roots)); [exists (front :: rr); split; [reflexivity|split; assumption]|].
  destruct (psi_at_ok (l_psi l) i) as [p Ep]; [pose proof (wf_psi l W); lia|]. rewrite Ep. cbn [bind].
  pose proof (x_lt l W) as Hx. assert (I0 : inside l (X0 l)) by (unfold inside; lra). assert (I1 : inside l (X1 l)) by (unfold inside; lra).
  match goal with |- context [if (length ?x =? _)%nat then _ else _] => set (new := x) end.
  destruct (Nat.eqb_spec (length new) (length (front :: rr))); [|exists (front :: rr); split; [reflexivity|split; assumption]].
  exists new. split; [reflexivity|]. split; [lia|]. clear e. unfold new. set (e := end_roots _ _ _ _). destruct (xorb (fst e) (snd e)).
  - apply Forall_app. split; [exact Fo|]. rewrite Forall_forall. intros x Hx'. apply repeat_spec in Hx'. subst x. destruct (fst e); assumption.
  - destruct (fst e && snd e)%bool; [|exact Fo]. destruct (_ =? _)%nat; [apply Forall_app; split; [exact Fo|repeat constructor; assumption]|]. destruct (_ =? _)%nat; [|exact Fo].
    apply Forall_app. split; [|constructor; [destruct (Bool.eqb _ _); assumption|constructor]]. rewrite Forall_forall in *. intros x Hx'. apply Fo. apply rsort_in. exact Hx'.
Qed.
Lemma tagged_len f : forall l, length (tagged f l) = list_sum (map (fun i => length (f i)) l).
Proof. induction l as [|i l IH]; [reflexivity|]. unfold tagged in *. cbn [flat_map map]. rewrite app_length, map_length, IH. reflexivity. Qed.

(** What the intervals at a point have in common with the reference. *)
Definition like (l : obj) (ref iv : intervals) : Prop :=
  Forall (inside l) (ri_roots (iv_ri iv)) /\
  (if l_S l then length (ri_roots (iv_ri iv)) = (length (ri_roots (iv_ri ref)) - 2)%nat
   else length (ri_roots (iv_ri iv)) = length (ri_roots (iv_ri ref)) /\ iv_active iv = iv_active ref).
Lemma similar_ok l ref pt : wf_obj l -> good_iv l ref -> l_dim l <> 1%nat -> exists iv, compute_similar_intervals O l ref pt = Ret iv /\ like l ref iv.
Proof.
  intros W [(mid & E & M) _] Hd. unfold compute_similar_intervals, like. pose proof (good_inside l (iv_ri ref) W (ex_intro _ mid (conj E M))) as Fi.
  destruct (Nat.eqb_spec (length (ri_roots (iv_ri ref))) 2) as [E2|E2].
  - destruct (l_S l).
    + eexists. split; [reflexivity|]. split; [constructor|]. cbn. lia.
    + exists ref. split; [reflexivity|]. split; [exact Fi|]. split; reflexivity.
  - fold (X0 l) (X1 l). change ri_empty with (ent []).
    destruct (choose_fun (fun i rs => compute_similar_roots O l ref i pt = Ret rs /\ length rs = cnt i mid /\ Forall (inside l) rs) [] (l_count l)) as [f Hf]; [intros; eapply similar_roots_ok; eassumption|].
    rewrite (foldM_add (fun i => compute_similar_roots O l ref i pt) f) by (intros i Hi; apply in_seq in Hi; apply Hf; lia). cbn [bind app].
    assert (M' : mids l (tagged f (seq 0 (l_count l)))) by (apply tagged_mids; [lia|intros; apply Hf; assumption]).
    assert (Hlen : length (tagged f (seq 0 (l_count l))) = length mid).
    { rewrite tagged_len, <- (mids_cnt_sum l mid M). f_equal. apply map_ext_in. intros i Hi. apply in_seq in Hi. apply Hf. lia. }
    set (T := tagged f (seq 0 (l_count l))) in *.
    assert (Er : length (ri_roots (iv_ri ref)) = (length mid + 2)%nat) by (rewrite E; cbn [ent ri_roots]; rewrite map_length, full_len; reflexivity).
    destruct (l_S l).
    + cbn [bind]. destruct (adjust_mid l T W M') as (mid' & Ea & Fa & La). rewrite Ea. cbn [bind]. eexists. split; [reflexivity|]. cbn [iv_ri ent ri_roots]. split; [exact Fa|]. rewrite map_length, Er. lia.
    + rewrite add_ent by (repeat constructor; cbn [snd]; lia). cbn [bind]. unfold assert_. cbn [ent ri_roots]. rewrite map_length, app_length, Er. cbn [length].
      destruct (Nat.eqb_spec (length T + 2) (length mid + 2)); [|lia]. cbn [bind]. change (mk_ri (map fst ?x) (map snd ?x) ?x) with (ent x).
      destruct (adjust_full l _ T W M' (Permutation_refl _) (T ++ [(X0 l, (-1)%Z); (X1 l, (-1)%Z)]) (Permutation_app_comm _ _)) as (mid' & Ea & Ma & Pa). rewrite Ea. cbn [bind]. eexists. split; [reflexivity|].
      cbn [iv_ri iv_active]. split; [apply good_inside; [exact W|exists mid'; split; [reflexivity|exact Ma]]|]. split; [|reflexivity]. cbn [ent ri_roots]. rewrite map_length, full_len.
      apply Permutation_length in Pa. rewrite !map_length in Pa. lia.
Qed.
Lemma intervals_ok l r tid ref pt : wf_obj l -> find_tid r tid = Some ref -> good_iv l ref -> exists iv, compute_intervals O l r pt tid = Ret iv /\ like l ref iv.
Proof.
  intros W F G. unfold compute_intervals. rewrite F. destruct (Nat.eqb_spec (l_dim l) 1) as [E|E]; [|apply similar_ok; assumption]. exists ref. split; [reflexivity|]. split; [apply good_inside; [exact W|apply G]|].
  destruct (l_S l) eqn:ES; [exfalso; apply (wf_S l W ES E)|]. split; reflexivity.
Qed.
End WithOracles.
