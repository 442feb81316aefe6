(** Moments of the Gauss rules on [-1,1]. *)
From Coq Require Import Reals ZArith List Lia Lra Bool.
From Verif Require Import M_GaussData M_TanhSinhData L_GaussHints L_Gauss L_Gauss2 L_Gauss3.
Import ListNotations.
Local Open Scope R_scope.

Lemma skipn_add {A} a b (l : list A) : skipn a (skipn b l) = skipn (a + b) l.
Proof. revert l. induction b as [|b IH]; intros l; [rewrite Nat.add_0_r; reflexivity|]. rewrite Nat.add_succ_r. destruct l as [|x l]; [rewrite !skipn_nil; reflexivity|]. cbn [skipn]. apply IH. Qed.
Lemma div2_le n : (2 * Nat.div2 n <= n)%nat.
Proof. pose proof (Nat.div2_odd n). lia. Qed.
Lemma split_rule n (l : list node) : length l = n -> l = half n l ++ middle n l ++ rev (half n (rev l)).
Proof.
  intros Hl. unfold half, middle. pose proof (div2_le n) as D. rewrite firstn_rev, rev_involutive, Hl. rewrite <- (firstn_skipn (Nat.div2 n) l) at 1. f_equal.
  rewrite <- (firstn_skipn (n - 2 * Nat.div2 n) (skipn (Nat.div2 n) l)) at 1. f_equal. rewrite skipn_add. f_equal. lia.
Qed.
Lemma half_in n l q : In q (half n l) -> In q l.
Proof. intros H. rewrite <- (firstn_skipn (Nat.div2 n) l). apply in_or_app. left. exact H. Qed.
Lemma middle_in n l q : In q (middle n l) -> In q l.
Proof. intros H. unfold middle in H. rewrite <- (firstn_skipn (Nat.div2 n) l). apply in_or_app. right. rewrite <- (firstn_skipn (n - 2 * Nat.div2 n) (skipn _ l)). apply in_or_app. left. exact H. Qed.
Lemma half_len n l : length l = n -> length (half n l) = Nat.div2 n.
Proof. intros H. unfold half. rewrite firstn_length. pose proof (div2_le n). lia. Qed.

Lemma tnode_range q : node_ok q = true -> -1 < tnode q < 1.
Proof. intros H. destruct (node_range q H) as (A & _). unfold tnode. lra. Qed.
Lemma Rabs_pow_le1 x k : Rabs x <= 1 -> Rabs (x ^ k) <= 1.
Proof. intros H. rewrite <- RPow_abs. rewrite <- (pow1 k). apply pow_incr. split; [apply Rabs_pos|assumption]. Qed.
Lemma eta_pos : 0 < eta. Proof. unfold eta. apply Rinv_0_lt_compat. apply pow_lt. lra. Qed.
Notation mom k := (fun q : node => wnode q * tnode q ^ k).
Lemma pair_bound q q' k : node_ok q = true -> node_ok q' = true -> sym_ok q q' = true -> Rabs (wnode q' * tnode q' ^ k - wnode q * (- tnode q) ^ k) <= (1 + 2 * INR k) * eta.
Proof.
  intros H H' S. destruct (sym_range q q' H H' S) as [A B]. pose proof (tnode_range q H) as T. pose proof (tnode_range q' H') as T'. destruct (node_range q H) as (_ & W & _).
  replace (wnode q' * tnode q' ^ k - wnode q * (- tnode q) ^ k) with ((wnode q' - wnode q) * tnode q' ^ k + wnode q * (tnode q' ^ k - (- tnode q) ^ k)) by ring.
  assert (Rabs (tnode q' ^ k) <= 1) by (apply Rabs_pow_le1, Rabs_le_between; lra).
  assert (P : Rabs (tnode q' ^ k - (- tnode q) ^ k) <= INR k * Rabs (tnode q' - - tnode q)) by (apply pow_diff; apply Rabs_le_between; lra).
  replace (tnode q' - - tnode q) with (tnode q + tnode q') in P by ring. eapply Rle_trans; [apply Rabs_triang|]. rewrite !Rabs_mult, (Rabs_right (wnode q)) by lra. rewrite Rabs_minus_sym in B.
  pose proof (pos_INR k). pose proof (Rabs_pos (wnode q' - wnode q)). pose proof (Rabs_pos (tnode q' ^ k)). pose proof (Rabs_pos (tnode q' ^ k - (- tnode q) ^ k)). pose proof (Rabs_pos (tnode q + tnode q')).
  assert (Rabs (wnode q' - wnode q) * Rabs (tnode q' ^ k) <= eta) by nra. assert (INR k * Rabs (tnode q + tnode q') <= INR k * (2 * eta)) by (apply Rmult_le_compat_l; assumption). nra.
Qed.
Lemma pairs_bound k : forall l l', length l = length l' -> forallb node_ok l = true -> forallb node_ok l' = true -> all2 sym_ok l l' = true ->
  Rabs (rsum (mom k) l' - rsum (fun q => wnode q * (- tnode q) ^ k) l) <= INR (length l) * ((1 + 2 * INR k) * eta).
Proof.
  induction l as [|q l IH]; intros [|q' l'] HL H H' S; try discriminate; [cbn; rewrite Rminus_diag_eq, Rabs_R0 by reflexivity; lra|].
  cbn [forallb] in H, H'. apply andb_prop in H as [H1 H2]. apply andb_prop in H' as [H1' H2']. unfold all2 in S. cbn [combine forallb fst snd] in S. apply andb_prop in S as [S1 S2].
  specialize (IH l' ltac:(cbn in HL; lia) H2 H2' S2). pose proof (pair_bound q q' k H1 H1' S1) as P. cbn [rsum fold_right length]. fold (rsum (mom k) l') (rsum (fun q => wnode q * (- tnode q) ^ k) l).
  rewrite S_INR. apply Rabs_le_between in IH, P. apply Rabs_le_between. lra.
Qed.
Record shape (n : nat) (l : list node) : Prop := {
  sh_len : length l = n; sh_ok : forallb node_ok l = true; sh_incr : incr_ok l = true;
  sh_sym : all2 sym_ok (half n l) (half n (rev l)) = true; sh_mid : forallb mid_ok (middle n l) = true }.
Lemma shape_ok_shape n l : shape_ok n l = true -> shape n l.
Proof. unfold shape_ok. rewrite !andb_true_iff, Nat.eqb_eq. intros ((((A & B) & C) & D) & E). constructor; assumption. Qed.
Lemma forallb_sub {A} (f : A -> bool) l m : (forall x, In x m -> In x l) -> forallb f l = true -> forallb f m = true.
Proof. intros H F. rewrite forallb_forall in *. auto. Qed.
(** The k-th moment, up to the (tiny) asymmetry of the literals. *)
Lemma moment_sym n l k : shape n l ->
  Rabs (rsum (mom k) l - (rsum (fun q => wnode q * tnode q ^ k + wnode q * (- tnode q) ^ k) (half n l) + rsum (mom k) (middle n l))) <= INR (Nat.div2 n) * ((1 + 2 * INR k) * eta).
Proof.
  intros [Hl Ho Hi Hs Hm].
  pose proof (pairs_bound k (half n l) (half n (rev l)) ltac:(rewrite (half_len n l Hl), (half_len n (rev l)); [reflexivity|rewrite rev_length; exact Hl])
    (forallb_sub _ _ _ (half_in n l) Ho) (forallb_sub _ l (half n (rev l)) ltac:(intros x Hx; apply half_in in Hx; apply in_rev; assumption) Ho) Hs) as P. rewrite half_len in P by assumption.
  assert (E : rsum (mom k) l = rsum (mom k) (half n l) + (rsum (mom k) (middle n l) + rsum (mom k) (half n (rev l)))).
  { rewrite (split_rule n l Hl) at 1. rewrite !rsum_app, rsum_rev. reflexivity. }
  assert (E2 : rsum (fun q => wnode q * tnode q ^ k + wnode q * (- tnode q) ^ k) (half n l) = rsum (mom k) (half n l) + rsum (fun q => wnode q * (- tnode q) ^ k) (half n l)).
  { generalize (half n l) as m. induction m as [|q m IH]; [cbn; ring|]. cbn [rsum fold_right]. cbn [rsum] in IH. unfold rsum in IH. rewrite IH. ring. }
  rewrite E, E2. match goal with |- Rabs ?a <= _ => match type of P with Rabs ?b <= _ => replace a with b by ring end end. exact P.
Qed.
Lemma rsum_zero {A} (f : A -> R) l : (forall x, In x l -> f x = 0) -> rsum f l = 0.
Proof. induction l as [|x l IH]; intros H; [reflexivity|]. cbn [rsum fold_right]. fold (rsum f l). rewrite IH, (H x (or_introl eq_refl)) by (intros; apply H; right; assumption). ring. Qed.
Lemma neg_pow_odd t i : (- t) ^ (2 * i + 1) = - t ^ (2 * i + 1).
Proof. rewrite !pow_add, !pow_mult. cbn [pow]. replace (- t * (- t * 1)) with (t * (t * 1)) by ring. ring. Qed.
Lemma neg_pow_even t i : (- t) ^ (2 * i) = (t * t) ^ i.
Proof. rewrite pow_mult. f_equal. cbn [pow]. ring. Qed.
Lemma pos_pow_even t i : t ^ (2 * i) = (t * t) ^ i.
Proof. rewrite pow_mult. f_equal. cbn [pow]. ring. Qed.
Lemma moment_odd n l i : shape n l -> Rabs (rsum (mom (2 * i + 1)) l) <= INR (Nat.div2 n) * ((1 + 2 * INR (2 * i + 1)) * eta).
Proof.
  intros Sh. pose proof (moment_sym n l (2 * i + 1) Sh) as M. rewrite (rsum_zero _ (half n l)), (rsum_zero _ (middle n l)), Rplus_0_l, Rminus_0_r in M; [exact M| |].
  - intros q Hq. rewrite (mid_zero q); [rewrite pow_add, pow_1; ring| |].
    + destruct Sh as [_ Ho _ _ _]. rewrite forallb_forall in Ho. apply Ho, (middle_in n), Hq.
    + destruct Sh as [_ _ _ _ Hm]. rewrite forallb_forall in Hm. apply Hm, Hq.
  - intros q _. rewrite neg_pow_odd. ring.
Qed.
Lemma middle_moment n l i : shape n l -> rsum (mom (2 * i)) (middle n l) = if (i =? 0)%nat then rsum wnode (middle n l) else 0.
Proof.
  intros Sh. destruct (Nat.eqb_spec i 0) as [->|Hi]; [apply rsum_ext; intros; change (2 * 0)%nat with 0%nat; rewrite pow_O; ring|]. apply rsum_zero. intros q Hq. rewrite (mid_zero q); [rewrite pow_i by lia; ring| |].
  - destruct Sh as [_ Ho _ _ _]. rewrite forallb_forall in Ho. apply Ho, (middle_in n), Hq.
  - destruct Sh as [_ _ _ _ Hm]. rewrite forallb_forall in Hm. apply Hm, Hq.
Qed.
Lemma mid_sum : forall l h, length l = length h -> forallb node_ok l = true -> all2 hint_ok l h = true -> Rabs (rsum wnode l * U - IZR (fold_right Z.add 0%Z (map snd h))) <= INR (length l).
Proof.
  induction l as [|q l IH]; intros [|x h] HL H S; try discriminate; [cbn; rewrite Rmult_0_l, Rminus_diag_eq, Rabs_R0 by reflexivity; lra|].
  cbn [forallb] in H. apply andb_prop in H as [H1 H2]. unfold all2 in S. cbn [combine forallb fst snd] in S. apply andb_prop in S as [S1 S2]. specialize (IH h ltac:(cbn in HL; lia) H2 S2).
  destruct (hint_range q x H1 S1) as (_ & N & _). unfold near in N. cbn [rsum fold_right length map]. fold (rsum wnode l). rewrite S_INR, plus_IZR. apply Rabs_le_between in IH, N. apply Rabs_le_between. lra.
Qed.
Definition state_of (qh : node * (Z * Z)) : mstate := ((tnode (fst qh) * tnode (fst qh), fmul (fst (snd qh)) (fst (snd qh))), (wnode (fst qh), snd (snd qh))).
Lemma state_inv q h : node_ok q = true -> hint_ok q h = true -> inv 1 (state_of (q, h)).
Proof.
  intros H S. destruct (hint_range q h H S) as (A & B & Rg1 & Rg2). destruct (node_range q H) as (_ & W & _). pose proof (tnode_range q H) as T. unfold inv, state_of. cbn [fst snd].
  assert (N : near (- tnode q * - tnode q) (fmul (fst h) (fst h)) (1 + 1 + 1)) by (apply near_mul; [exact A|exact A|lra|split; apply IZR_le; lia]).
  replace (- tnode q * - tnode q) with (tnode q * tnode q) in N by ring. replace (1 + 1 + 1) with 3 in N by ring. split; [exact N|]. split; [nra|]. split; [apply fmul_range; assumption|]. split; [exact B|]. split; [lra|assumption].
Qed.
Lemma states l h : length l = length h -> forallb node_ok l = true -> all2 hint_ok l h = true ->
  Forall (inv 1) (map state_of (combine l h)) /\ map (fun x : mstate => snd (fst x)) (map state_of (combine l h)) = map (fun h => fmul (fst h) (fst h)) h /\
  map (fun x : mstate => snd (snd x)) (map state_of (combine l h)) = map snd h /\
  (forall i, rsum (fun x : mstate => fst (snd x) * fst (fst x) ^ i) (map state_of (combine l h)) = rsum (fun q => wnode q * (tnode q * tnode q) ^ i) l) /\ length (map state_of (combine l h)) = length l.
Proof.
  revert h. induction l as [|q l IH]; intros [|x h] HL H S; try discriminate; [repeat split; constructor|].
  cbn [forallb] in H. apply andb_prop in H as [H1 H2]. unfold all2 in S. cbn [combine forallb fst snd] in S. apply andb_prop in S as [S1 S2]. destruct (IH h ltac:(cbn in HL; lia) H2 S2) as (A & B & D & E & F).
  cbn [combine map length]. split; [constructor; [apply state_inv; assumption|exact A]|]. split; [rewrite <- B; reflexivity|]. split; [rewrite <- D; reflexivity|]. split; [|rewrite F; reflexivity].
  intros i. cbn [rsum fold_right state_of fst snd]. f_equal. apply E.
Qed.

Lemma gauss_ok_facts n l h : gauss_ok n l h = true -> shape n l /\ length (firstn (Nat.div2 n) h) = Nat.div2 n /\ length (skipn (Nat.div2 n) h) = length (middle n l) /\
  all2 hint_ok (half n l) (firstn (Nat.div2 n) h) = true /\ all2 hint_ok (middle n l) (skipn (Nat.div2 n) h) = true /\
  moments_ok n 1 (fold_right Z.add 0%Z (map snd (skipn (Nat.div2 n) h))) (map (fun h => fmul (fst h) (fst h)) (firstn (Nat.div2 n) h)) (map snd (firstn (Nat.div2 n) h)) = true.
Proof.
  unfold gauss_ok. rewrite !andb_true_iff, Nat.eqb_eq. intros ((((A & B) & C) & D) & E). apply shape_ok_shape in A. split; [exact A|].
  rewrite half_len in B by (apply (sh_len _ _ A)). split; [rewrite firstn_length; lia|]. split; [rewrite skipn_length; lia|]. split; [exact C|]. split; [exact D|exact E].
Qed.
Lemma moment_even n l h i : (n <= 100)%nat -> gauss_ok n l h = true -> (i < n)%nat -> Rabs (rsum (mom (2 * i)) l - / (INR (2 * i) + 1)) <= / 10 ^ 14.
Proof.
  intros Hn H Hi. destruct (gauss_ok_facts n l h H) as (Sh & L1 & L2 & A1 & A2 & Mo). pose proof (sh_ok _ _ Sh) as Ho. pose proof (sh_len _ _ Sh) as Hl.
  destruct (states (half n l) (firstn (Nat.div2 n) h) ltac:(rewrite half_len; lia) (forallb_sub _ _ _ (half_in n l) Ho) A1) as (I1 & I2 & I3 & I4 & I5).
  rewrite <- I2, <- I3 in Mo. pose proof (moments_sound n 1 _ 1 _ ltac:(lia) Mo I1 i Hi) as M. rewrite I4, I5, half_len in M by assumption.
  pose proof (mid_sum (middle n l) (skipn (Nat.div2 n) h) ltac:(symmetry; exact L2) (forallb_sub _ _ _ (middle_in n l) Ho) A2) as Ms. pose proof (moment_sym n l (2 * i) Sh) as My. rewrite (middle_moment n l i Sh) in My.
  rewrite (rsum_ext (fun q => wnode q * tnode q ^ (2 * i) + wnode q * (- tnode q) ^ (2 * i)) (fun q => 2 * (wnode q * (tnode q * tnode q) ^ i))) in My by (intros; rewrite neg_pow_even, pos_pow_even; ring).
  assert (E2 : rsum (fun q => 2 * (wnode q * (tnode q * tnode q) ^ i)) (half n l) = 2 * rsum (fun q => wnode q * (tnode q * tnode q) ^ i) (half n l)).
  { generalize (half n l) as m. induction m as [|q m IH]; [cbn; ring|]. cbn [rsum fold_right]. unfold rsum in IH. rewrite IH. ring. }
  rewrite E2 in My. assert (Hmid : (length (middle n l) <= 1)%nat) by (unfold middle; rewrite firstn_length; pose proof (Nat.div2_odd n); destruct (Nat.odd n); cbn [Nat.b2n] in *; lia).
  assert (Hd : INR (Nat.div2 n) <= 50) by (replace 50 with (INR 50) by (cbn; lra); apply le_INR; pose proof (div2_le n); lia).
  assert (Hii : INR i <= 99) by (replace 99 with (INR 99) by (cbn; lra); apply le_INR; lia). pose proof (pos_INR i) as Pi. pose proof (pos_INR (Nat.div2 n)) as Pd.
  assert (E3 : INR (2 * i) = 2 * INR i) by (rewrite mult_INR; reflexivity). rewrite E3 in *. apply le_INR in Hmid. cbn [INR] in Hmid.
  set (sm := rsum (mom (2 * i)) l) in *. set (sh := rsum (fun q => wnode q * (tnode q * tnode q) ^ i) (half n l)) in *. set (mz := IZR (fold_right Z.add 0%Z _)) in *. set (sd := rsum wnode (middle n l)) in *.
  pose proof U_pos as HU. assert (B1 : 2 * INR (Nat.div2 n) * (1 + 4 * INR i) <= 39700) by nra. assert (B2 : INR (Nat.div2 n) * (1 + 2 * (2 * INR i)) <= 19850) by nra.
  assert (B3 : INR (Nat.div2 n) * ((1 + 2 * (2 * INR i)) * eta) <= 19850 * eta) by (rewrite <- Rmult_assoc; apply Rmult_le_compat_r; [left; apply eta_pos|exact B2]).
  unfold slack in M. set (dd := (if (i =? 0)%nat then sd else 0)) in *. set (dz := if (i =? 0)%nat then mz else 0) in *. assert (B4 : Rabs (dd * U - dz) <= 1).
  { unfold dd, dz. destruct (i =? 0)%nat; [lra|]. rewrite Rmult_0_l, Rminus_0_r, Rabs_R0. lra. }
  replace (IZR 1 + 2 * INR i) with (2 * INR i + 1) in M by (cbn; ring). apply Rabs_le_between in M, My, B4. apply Rabs_le_between.
  set (rr := / (2 * INR i + 1)) in *. replace (U / (2 * INR i + 1)) with (rr * U) in M by (unfold rr, Rdiv; ring).
  assert (B5 : eta <= / 10 ^ 33) by (unfold eta; lra).
  assert (Q : (32768 + 39700 + 1) + 19850 * eta * U <= / 10 ^ 14 * U).
  { unfold eta, unit_. lra. }
  assert (K : - (/ 10 ^ 14 * U) <= (sm - rr) * U <= / 10 ^ 14 * U).
  { assert (My1 : (2 * sh + dd) * U - 19850 * eta * U <= sm * U) by nra. assert (My2 : sm * U <= (2 * sh + dd) * U + 19850 * eta * U) by nra. split; lra. }
  destruct K as [K1 K2]. split; [apply (Rmult_le_reg_r U); lra|apply (Rmult_le_reg_r U); lra].
Qed.
Lemma moment_gauss n l h k : (n <= 100)%nat -> gauss_ok n l h = true -> (k < 2 * n)%nat ->
  Rabs (rsum (mom k) l - (if Nat.even k then / (INR k + 1) else 0)) <= / 10 ^ 14.
Proof.
  intros Hn H Hk. destruct (Nat.even k) eqn:Ek.
  - apply Nat.even_spec in Ek as [i ->]. apply (moment_even n l h); [assumption|assumption|lia].
  - assert (Ok : Nat.odd k = true) by (rewrite <- Nat.negb_even, Ek; reflexivity). apply Nat.odd_spec in Ok as [i ->]. rewrite Rminus_0_r. destruct (gauss_ok_facts n l h H) as (Sh & _).
    eapply Rle_trans; [apply (moment_odd n l i Sh)|].
    assert (Hd : INR (Nat.div2 n) <= 50) by (replace 50 with (INR 50) by (cbn; lra); apply le_INR; pose proof (div2_le n); lia).
    assert (Hii : INR (2 * i + 1) <= 199) by (replace 199 with (INR 199) by (rewrite INR_IZR_INZ; reflexivity); apply le_INR; lia). pose proof (pos_INR (2 * i + 1)) as Pi. pose proof (pos_INR (Nat.div2 n)) as Pd.
    assert (B2 : INR (Nat.div2 n) * (1 + 2 * INR (2 * i + 1)) <= 19950) by nra. rewrite <- Rmult_assoc. apply (Rle_trans _ (19950 * eta)); [apply Rmult_le_compat_r; [left; apply eta_pos|exact B2]|]. unfold eta. lra.
Qed.
