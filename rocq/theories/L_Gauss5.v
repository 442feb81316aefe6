(** The tables as rules on [0,1]; polynomials. *)
From Coq Require Import Reals ZArith List Lia Lra Bool.
From Coquelicot Require Import Coquelicot.
From Verif Require Import M_GaussData M_TanhSinhData M_Tables L_GaussHints L_Gauss L_Gauss2 L_Gauss3 L_Gauss4 M_Quad S_Quad S_Gauss.
Import ListNotations.
Local Open Scope R_scope.

(** ** From lists of literals to x1d, w1d *)
Lemma pairs_up_nth : forall l i, (2 * i + 1 < length l)%nat -> nth i (pairs_up l) ((0, 0), (0, 0))%Z = (nth (2 * i) l (0, 0)%Z, nth (2 * i + 1) l (0, 0)%Z).
Proof.
  fix IH 1. intros [|a [|b l]] i Hi; try (cbn in Hi; lia). destruct i as [|i]; [reflexivity|]. cbn [pairs_up nth]. cbn [length] in Hi. rewrite (IH l i) by lia.
  replace (2 * S i)%nat with (S (S (2 * i))) by lia. reflexivity.
Qed.
Lemma firstn_nth_c {A} (d : A) : forall l n i, (i < n)%nat -> nth i (firstn n l) d = nth i l d.
Proof. induction l as [|x l IH]; intros [|n] [|i] H; try reflexivity; try lia. cbn [firstn nth]. apply IH. lia. Qed.
Lemma skipn_nth_c {A} (d : A) : forall l n i, nth i (skipn n l) d = nth (n + i) l d.
Proof. induction l as [|x l IH]; intros [|n] i; try reflexivity; [destruct i; reflexivity|]. cbn [skipn Nat.add nth]. apply IH. Qed.
Lemma decimal0 : decimal (0, 0)%Z = 0. Proof. unfold decimal. cbn. lra. Qed.
Section Link.
Context (lits : list (Z * Z)) (Hlen : length lits = (100 * 101)%nat).
Notation table := (map decimal lits).
Lemma link n i : (1 <= n <= 100)%nat -> (i < n)%nat -> let q := nth i (pairs_up (rule_lits lits n)) ((0, 0), (0, 0))%Z in x1d table n i = decimal (fst q) /\ w1d table n i = wnode q.
Proof.
  intros Hn Hi q. assert (Hl : length (rule_lits lits n) = (2 * n)%nat) 
    by (unfold rule_lits; rewrite firstn_length, skipn_length, Hlen; assert (((n - 1) * n + 2 * n <= 100 * 101)%nat) by (destruct n as [|m]; [lia|]; replace (S m - 1)%nat with m by lia; nia); lia).
  unfold q, x1d, w1d, wnode. rewrite pairs_up_nth by lia. cbn [fst snd]. unfold rule_lits. rewrite !firstn_nth_c, !skipn_nth_c by lia. rewrite <- decimal0, !map_nth. split; [reflexivity|]. rewrite Nat.add_assoc. reflexivity.
Qed.
Lemma table_sum n (f : R -> R) : (1 <= n <= 100)%nat -> length (pairs_up (rule_lits lits n)) = n ->
  fold_right (fun i s => w1d table n i * f (x1d table n i) + s) 0 (seq 0 n) = rsum (fun q => wnode q * f (decimal (fst q))) (pairs_up (rule_lits lits n)).
Proof.
  intros Hn Hl. set (l := pairs_up (rule_lits lits n)) in *. assert (El : l = map (fun i => nth i l ((0, 0), (0, 0))%Z) (seq 0 n)).
  { rewrite <- Hl at 1. clear. induction l as [|x l IH]; [reflexivity|]. cbn [length seq map nth]. f_equal. rewrite <- seq_shift, map_map. exact IH. }
  rewrite El at 1. unfold rsum. assert (G : forall m, (forall i, In i m -> (i < n)%nat) -> fold_right (fun i s => w1d table n i * f (x1d table n i) + s) 0 m = fold_right (fun x a => wnode x * f (decimal (fst x)) + a) 0 (map (fun i => nth i l ((0, 0), (0, 0))%Z) m)).
  { induction m as [|i m IH]; intros Hm; [reflexivity|]. cbn [fold_right map]. rewrite IH by (intros; apply Hm; right; assumption). destruct (link n i Hn (Hm i (or_introl eq_refl))) as [-> ->]. reflexivity. }
  apply G. intros i Hi. apply in_seq in Hi. lia.
Qed.
End Link.
Lemma rule_of lits f : all_rules lits f = true -> forall n, (1 <= n <= 100)%nat -> f n (pairs_up (rule_lits lits n)) = true.
Proof. intros H n Hn. unfold all_rules in H. rewrite forallb_forall in H. apply H, in_seq. lia. Qed.
Lemma gauss_len : length gauss_literals = (100 * 101)%nat. Proof. vm_compute. reflexivity. Qed.
Lemma tanh_sinh_len : length tanh_sinh_literals = (100 * 101)%nat. Proof. vm_compute. reflexivity. Qed.
Lemma gauss_rule n : (1 <= n <= 100)%nat -> gauss_ok n (pairs_up (rule_lits gauss_literals n)) (nth (n - 1) gauss_hints []) = true.
Proof. intros Hn. exact (rule_of gauss_literals _ gauss_checked n Hn). Qed.
Lemma gauss_shape n : (1 <= n <= 100)%nat -> shape n (pairs_up (rule_lits gauss_literals n)).
Proof. intros Hn. apply (proj1 (gauss_ok_facts _ _ _ (gauss_rule n Hn))). Qed.
Lemma tanh_sinh_shape n : (1 <= n <= 100)%nat -> shape n (pairs_up (rule_lits tanh_sinh_literals n)).
Proof. intros Hn. apply shape_ok_shape, (rule_of tanh_sinh_literals _ tanh_sinh_checked n Hn). Qed.

(** ** The shape of the rules *)
Lemma incr_nth : forall l, forallb node_ok l = true -> incr_ok l = true -> forall i, (S i < length l)%nat -> decimal (fst (nth i l ((0, 0), (0, 0))%Z)) < decimal (fst (nth (S i) l ((0, 0), (0, 0))%Z)).
Proof.
  induction l as [|a l IH]; intros Ho Hi i Hl; [cbn in Hl; lia|]. cbn [forallb] in Ho. apply andb_prop in Ho as [Ha Ho]. destruct l as [|b l]; [cbn in Hl; lia|].
  change (lit_lt (fst a) (fst b) && incr_ok (b :: l) = true) in Hi. apply andb_prop in Hi as [H1 H2]. destruct i as [|i].
  - cbn [nth]. cbn [forallb] in Ho. apply andb_prop in Ho as [Hb _]. apply lit_lt_ok; [apply (node_range a Ha)|apply (node_range b Hb)|exact H1].
  - apply (IH Ho H2 i). cbn [length] in *. lia.
Qed.
Section Shape.
Context (lits : list (Z * Z)) (Hlen : length lits = (100 * 101)%nat) (n : nat) (Hn : (1 <= n <= 100)%nat) (Sh : shape n (pairs_up (rule_lits lits n))).
Notation table := (map decimal lits).
Lemma shape_node i : (i < n)%nat -> node_ok (nth i (pairs_up (rule_lits lits n)) ((0, 0), (0, 0))%Z) = true.
Proof. intros Hi. pose proof (sh_ok _ _ Sh) as Ho. rewrite forallb_forall in Ho. apply Ho, nth_In. rewrite (sh_len _ _ Sh). exact Hi. Qed.
Lemma shape_range i : (i < n)%nat -> 0 < x1d table n i < 1 /\ 0 < w1d table n i <= 1.
Proof. intros Hi. destruct (link lits Hlen n i Hn Hi) as [-> ->]. destruct (node_range _ (shape_node i Hi)) as (A & B & _). split; assumption. Qed.
Lemma shape_incr i : (S i < n)%nat -> x1d table n i < x1d table n (S i).
Proof. intros Hi. destruct (link lits Hlen n i Hn ltac:(lia)) as [-> _]. destruct (link lits Hlen n (S i) Hn Hi) as [-> _]. apply incr_nth; [apply (sh_ok _ _ Sh)|apply (sh_incr _ _ Sh)|rewrite (sh_len _ _ Sh); exact Hi]. Qed.
Lemma rev_nth_c (l : list node) i : (i < length l)%nat -> nth i (rev l) ((0, 0), (0, 0))%Z = nth (length l - 1 - i) l ((0, 0), (0, 0))%Z.
Proof. intros H. rewrite rev_nth by exact H. f_equal. lia. Qed.
Lemma shape_sym_half i : (i < Nat.div2 n)%nat -> Rabs (x1d table n i + x1d table n (n - 1 - i) - 1) <= eta /\ Rabs (w1d table n i - w1d table n (n - 1 - i)) <= eta.
Proof.
  intros Hi. pose proof (div2_le n) as D. pose proof (sh_len _ _ Sh) as Hl. destruct (link lits Hlen n i Hn ltac:(lia)) as [-> ->]. destruct (link lits Hlen n (n - 1 - i) Hn ltac:(lia)) as [-> ->].
  set (l := pairs_up (rule_lits lits n)) in *. set (q := nth i l _). set (q' := nth (n - 1 - i) l _). pose proof (sh_sym _ _ Sh) as Hs. unfold l in Hs. fold l in Hs.
  assert (S : sym_ok q q' = true).
  { apply (all2_in _ _ _ Hs). replace (q, q') with (nth i (combine (half n l) (half n (rev l))) (((0, 0), (0, 0)), ((0, 0), (0, 0)))%Z).
    - apply nth_In. rewrite combine_length, !half_len; [lia|rewrite rev_length; exact Hl|exact Hl].
    - rewrite combine_nth by (rewrite !half_len; [reflexivity|rewrite rev_length; exact Hl|exact Hl]). unfold half. rewrite !firstn_nth_c, rev_nth_c, Hl by lia. reflexivity. }
  destruct (sym_range q q' (shape_node i ltac:(lia)) (shape_node (n - 1 - i) ltac:(lia)) S) as [A B]. split; [|exact B]. unfold tnode in A.
  apply Rabs_le_between in A. apply Rabs_le_between. lra.
Qed.
Lemma shape_sym i : (i < n)%nat -> Rabs (x1d table n i + x1d table n (n - 1 - i) - 1) <= eta /\ Rabs (w1d table n i - w1d table n (n - 1 - i)) <= eta.
Proof.
  intros Hi. pose proof (Nat.div2_odd n) as D. destruct (Nat.lt_ge_cases i (Nat.div2 n)) as [H|H]; [apply shape_sym_half, H|].
  destruct (Nat.lt_ge_cases (n - 1 - i) (Nat.div2 n)) as [H'|H'].
  - destruct (shape_sym_half (n - 1 - i) H') as [A B]. replace (n - 1 - (n - 1 - i))%nat with i in A, B by lia. rewrite Rabs_minus_sym in B. split; [|exact B]. rewrite Rplus_comm with (r1 := x1d table n i). exact A.
  - assert (Ei : (n - 1 - i = i)%nat) by (destruct (Nat.odd n); cbn [Nat.b2n] in D; lia). rewrite Ei. rewrite Rminus_diag_eq with (r1 := w1d table n i), Rabs_R0 by reflexivity. split; [|left; apply eta_pos].
    destruct (link lits Hlen n i Hn Hi) as [-> _]. set (l := pairs_up (rule_lits lits n)) in *. set (q := nth i l _). assert (Z : tnode q = 0).
    { apply mid_zero; [apply shape_node, Hi|]. pose proof (sh_mid _ _ Sh) as Hm. rewrite forallb_forall in Hm. apply Hm. unfold middle. assert (Eh : i = Nat.div2 n) by (destruct (Nat.odd n); cbn [Nat.b2n] in D; lia).
      replace q with (nth 0 (firstn (n - 2 * Nat.div2 n) (skipn (Nat.div2 n) (pairs_up (rule_lits lits n)))) ((0, 0), (0, 0))%Z).
      - apply nth_In. rewrite firstn_length, skipn_length, (sh_len _ _ Sh). lia.
      - rewrite firstn_nth_c, skipn_nth_c by lia. unfold q. f_equal. lia. }
    unfold tnode in Z. replace (decimal (fst q) + decimal (fst q) - 1) with 0 by lra. rewrite Rabs_R0. left; apply eta_pos.
Qed.
End Shape.

(** ** Powers *)
Lemma rsum_lin {A} (f g : A -> R) a b l : rsum (fun x => a * f x + b * g x) l = a * rsum f l + b * rsum g l.
Proof. induction l as [|x l IH]; [cbn; ring|]. cbn [rsum fold_right]. unfold rsum in IH. rewrite IH. ring. Qed.
(** From powers of 2x-1 to powers of x. *)
Lemma mixed_powers l (K : nat) (d : R) : (forall k, (k < K)%nat -> Rabs (rsum (mom k) l - (if Nat.even k then / (INR k + 1) else 0)) <= d) ->
  forall m j, (j + m < K)%nat -> exists I, Rabs (rsum (fun q => wnode q * (tnode q ^ j * decimal (fst q) ^ m)) l - I) <= d /\ is_RInt (fun x => (2 * x - 1) ^ j * x ^ m) 0 1 I.
Proof.
  intros H. induction m as [|m IH]; intros j Hj.
  - exists (if Nat.even j then / (INR j + 1) else 0). split.
    + rewrite (rsum_ext _ (mom j)) by (intros; rewrite pow_O; ring). apply H. lia.
    + pose proof (pos_INR j) as Pj. apply (is_RInt_ext (fun x => (2 * x - 1) ^ j)); [intros x _; change ((2 * x - 1) ^ j = (2 * x - 1) ^ j * x ^ 0); rewrite pow_O; ring|].
      replace (if Nat.even j then / (INR j + 1) else 0) with (minus ((2 * 1 - 1) ^ S j / (2 * (INR j + 1))) ((2 * 0 - 1) ^ S j / (2 * (INR j + 1)))).
      * apply (is_RInt_derive (fun x => (2 * x - 1) ^ S j / (2 * (INR j + 1)))).
        -- intros x _. auto_derive; [exact I|]. replace (match j with 0%nat => 1 | S _ => INR j + 1 end) with (INR j + 1) by (destruct j; [cbn; ring|reflexivity]). replace (2 * x + - (1)) with (2 * x - 1) by ring. field. lra.
        -- intros x _. apply (ex_derive_continuous (fun x => (2 * x - 1) ^ j)). auto_derive. exact I.
      * unfold minus, plus, opp. cbn. replace (2 * 1 - 1) with 1 by ring. replace (2 * 0 - 1) with (-1) by ring. rewrite pow1. destruct (Nat.even j) eqn:E.
        -- apply Nat.even_spec in E as [i ->]. rewrite pow_1_even. field. lra.
        -- assert (O : Nat.odd j = true) by (rewrite <- Nat.negb_even, E; reflexivity). apply Nat.odd_spec in O as [i ->]. replace (2 * i + 1)%nat with (S (2 * i)) by lia. rewrite pow_1_odd. pose proof (pos_INR (S (2 * i))) as Ps. set (z := INR (S (2 * i))) in *. field. lra.
  - destruct (IH j ltac:(lia)) as (I1 & A1 & B1). destruct (IH (S j) ltac:(lia)) as (I2 & A2 & B2). exists (/ 2 * I1 + / 2 * I2). split.
    + rewrite (rsum_ext _ (fun q => / 2 * (wnode q * (tnode q ^ j * decimal (fst q) ^ m)) + / 2 * (wnode q * (tnode q ^ S j * decimal (fst q) ^ m)))) by (intros q _; cbn [pow]; unfold tnode; field).
      rewrite rsum_lin. apply Rabs_le_between in A1, A2. apply Rabs_le_between. lra.
    + apply (is_RInt_ext (fun x => plus (scal (/ 2) ((2 * x - 1) ^ j * x ^ m)) (scal (/ 2) ((2 * x - 1) ^ S j * x ^ m)))); [intros x _; change (/ 2 * ((2 * x - 1) ^ j * x ^ m) + / 2 * ((2 * x - 1) * (2 * x - 1) ^ j * x ^ m) = (2 * x - 1) ^ j * (x * x ^ m)); field|].
      apply (@is_RInt_plus R_NormedModule); apply (@is_RInt_scal R_NormedModule); assumption.
Qed.
