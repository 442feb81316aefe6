(** From the checks of L_Gauss.v to real numbers. *)
From Coq Require Import Reals ZArith List Lia Lra Bool.
From Verif Require Import L_GaussHints L_Gauss M_Tables.
Import ListNotations.
Local Open Scope R_scope.

(** The real number of a decimal literal. *)
Notation lit := decimal.
Notation U := (IZR unit_).
Lemma U_pos : 0 < U. Proof. unfold unit_. lra. Qed.
Lemma p10_pos e : (0 <= e <= 70)%Z -> 0 < IZR (10 ^ e).
Proof. intros H. apply IZR_lt. apply Z.pow_pos_nonneg; lia. Qed.
Lemma exp_ok_iff e : exp_ok e = true <-> (0 <= e <= 70)%Z.
Proof. unfold exp_ok. rewrite andb_true_iff, !Z.leb_le. tauto. Qed.

Lemma Rabs_le_between x e : Rabs x <= e <-> - e <= x <= e.
Proof. split; [intros H; unfold Rabs in H; destruct (Rcase_abs x); lra|apply Rabs_le]. Qed.
(** r is a / 2^64 up to e / 2^64. *)
Definition near (r : R) (a : Z) (e : R) : Prop := Rabs (r * U - IZR a) <= e.
Lemma fmul_bounds a b : IZR (fmul a b) <= IZR a * IZR b / U < IZR (fmul a b) + 1.
Proof.
  unfold fmul. rewrite Z.shiftr_div_pow2 by lia. change (2 ^ 64)%Z with unit_. pose proof U_pos as HU.
  pose proof (Z.div_mod (a * b) unit_ ltac:(unfold unit_; lia)) as D. pose proof (Z.mod_pos_bound (a * b) unit_ ltac:(unfold unit_; lia)) as M.
  set (q := (a * b / unit_)%Z) in *. set (r := ((a * b) mod unit_)%Z) in *. apply (f_equal IZR) in D. rewrite plus_IZR, !mult_IZR in D. rewrite D.
  assert (0 <= IZR r < U) by (split; [apply IZR_le|apply IZR_lt]; lia).
  assert (E : (U * IZR q + IZR r) / U = IZR q + IZR r / U) by (field; lra). rewrite E.
  assert (0 <= IZR r / U) by (apply Rmult_le_pos; [lra|left; apply Rinv_0_lt_compat; lra]).
  assert (IZR r / U < 1) by (apply (Rmult_lt_reg_r U); [lra|]; unfold Rdiv; rewrite Rmult_assoc, Rinv_l by lra; lra). lra.
Qed.
Lemma near_mul r a e s b f : near r a e -> near s b f -> -1 <= r <= 1 -> 0 <= IZR b <= U -> near (r * s) (fmul a b) (e + f + 1).
Proof.
  intros H1 H2 Hr Hb. unfold near in *. pose proof U_pos as HU. pose proof (fmul_bounds a b) as F. set (d1 := r * U - IZR a) in *. set (d2 := s * U - IZR b) in *.
  assert (E : r * s * U = IZR a * IZR b / U + d1 * (IZR b / U) + r * d2) by (unfold d1, d2; field; lra). rewrite E.
  assert (Hb' : 0 <= IZR b / U <= 1).
  { split; [apply Rmult_le_pos; [lra|left; apply Rinv_0_lt_compat; lra]|]. apply (Rmult_le_reg_r U); [lra|]. unfold Rdiv. rewrite Rmult_assoc, Rinv_l by lra. lra. }
  set (bb := IZR b / U) in *. set (c := IZR a * IZR b / U) in *. apply Rabs_le_between in H1, H2.
  assert (Rabs (d1 * bb) <= e) by (rewrite Rabs_mult, (Rabs_right bb) by lra; pose proof (Rabs_pos d1); assert (Rabs d1 <= e) by (apply Rabs_le_between; lra); nra).
  assert (Rabs (r * d2) <= f) by (rewrite Rabs_mult; assert (Rabs r <= 1) by (apply Rabs_le_between; lra); pose proof (Rabs_pos r); pose proof (Rabs_pos d2); assert (Rabs d2 <= f) by (apply Rabs_le_between; lra); nra).
  apply Rabs_le_between in H, H0. apply Rabs_le_between. lra.
Qed.
Lemma fmul_range a b : (0 <= a <= unit_ -> 0 <= b <= unit_ -> 0 <= fmul a b <= unit_)%Z.
Proof.
  intros Ha Hb. unfold fmul. rewrite Z.shiftr_div_pow2 by lia. change (2 ^ 64)%Z with unit_. split; [apply Z.div_pos; [nia|unfold unit_; lia]|].
  apply Z.div_le_upper_bound; [unfold unit_; lia|]. nia.
Qed.

(** ** Nodes *)
Definition rnode (q : node) : R * R := (lit (fst q), lit (snd q)).
Definition tnode (q : node) : R := 2 * lit (fst q) - 1.
Definition wnode (q : node) : R := lit (snd q).
Lemma node_range q : node_ok q = true -> 0 < lit (fst q) < 1 /\ 0 < wnode q <= 1 /\ (0 <= snd (fst q) <= 70)%Z /\ (0 <= snd (snd q) <= 70)%Z.
Proof.
  destruct q as [[mx ex] [mw ew]]. unfold node_ok, wnode, decimal. cbn [fst snd]. rewrite !andb_true_iff, !exp_ok_iff, !Z.ltb_lt, !Z.leb_le. intros (((((Hx & Hw) & A) & B) & C) & D).
  rewrite (p10_ok ex Hx) in B. rewrite (p10_ok ew Hw) in D. pose proof (p10_pos ex Hx) as Px. pose proof (p10_pos ew Hw) as Pw.
  apply IZR_lt in A, B, C. apply IZR_le in D. split; [|split; [|split; assumption]]; (split; [apply Rmult_lt_0_compat; [assumption|apply Rinv_0_lt_compat; assumption]|]).
  - apply (Rmult_lt_reg_r (IZR (10 ^ ex))); [assumption|]. unfold Rdiv. rewrite Rmult_assoc, Rinv_l by lra. lra.
  - apply (Rmult_le_reg_r (IZR (10 ^ ew))); [assumption|]. unfold Rdiv. rewrite Rmult_assoc, Rinv_l by lra. lra.
Qed.
Lemma lit_lt_ok a b : (0 <= snd a <= 70)%Z -> (0 <= snd b <= 70)%Z -> lit_lt a b = true -> lit a < lit b.
Proof.
  destruct a as [ma ea], b as [mb eb]. unfold lit_lt, decimal. cbn [fst snd]. intros Ha Hb. pose proof (p10_pos ea Ha) as Pa. pose proof (p10_pos eb Hb) as Pb. destruct (Z.eqb_spec ea eb) as [->|_]; intros H; apply Z.ltb_lt in H.
  - apply Rmult_lt_compat_r; [apply Rinv_0_lt_compat; assumption|apply IZR_lt; assumption].
  - rewrite !p10_ok in H by assumption. apply IZR_lt in H. rewrite !mult_IZR in H. apply (Rmult_lt_reg_r (IZR (10 ^ ea) * IZR (10 ^ eb))); [apply Rmult_lt_0_compat; assumption|]. set (qa := IZR (10 ^ ea)) in *. set (qb := IZR (10 ^ eb)) in *. clearbody qa qb.
    replace (IZR ma / qa * (qa * qb)) with (IZR ma * qb) by (field; lra).
    replace (IZR mb / qb * (qa * qb)) with (IZR mb * qa) by (field; lra). assumption.
Qed.
Definition eta : R := / 10 ^ 33.
Lemma p10_ratio e : (33 <= e <= 70)%Z -> IZR (10 ^ (e - 33)) = eta * IZR (10 ^ e).
Proof.
  intros H. unfold eta. replace (10 ^ e)%Z with (10 ^ (e - 33) * 10 ^ 33)%Z by (rewrite <- Z.pow_add_r by lia; f_equal; lia). rewrite mult_IZR. replace (IZR (10 ^ 33)) with (10 ^ 33).
  - field.
  - change 33%Z with (Z.of_nat 33). rewrite <- pow_IZR. reflexivity.
Qed.
Lemma sym_range q q' : node_ok q = true -> node_ok q' = true -> sym_ok q q' = true -> Rabs (tnode q + tnode q') <= 2 * eta /\ Rabs (wnode q - wnode q') <= eta.
Proof.
  intros Hq Hq'. destruct (node_range q Hq) as (_ & _ & Ex & Ew). destruct (node_range q' Hq') as (_ & _ & Ex' & Ew'). destruct q as [[mx ex] [mw ew]], q' as [[mx' ex'] [mw' ew']]. unfold sym_ok, tnode, wnode, decimal. cbn [fst snd] in *.
  rewrite !andb_true_iff, !Z.leb_le, Z.eqb_eq. intros (((((A & B) & C) & D) & E) & F). subst ew'. pose proof (p10_pos ex Ex) as Px. pose proof (p10_pos ew Ew) as Pw. pose proof (p10_pos ex' Ex') as Px'.
  rewrite (p10_ok ex), (p10_ok (ex - 33)), (p10_ok (ex - ex')) in C by lia. rewrite (p10_ok (ew - 33)) in F by lia. apply IZR_le in C, F. rewrite abs_IZR in C, F. rewrite minus_IZR in F. rewrite minus_IZR, plus_IZR, mult_IZR in C. rewrite p10_ratio in C, F by lia. split.
  - assert (Er : IZR (10 ^ ex) = IZR (10 ^ (ex - ex')) * IZR (10 ^ ex')) by (rewrite <- mult_IZR, <- Z.pow_add_r by lia; do 2 f_equal; lia).
    pose proof (p10_pos (ex - ex') ltac:(lia)) as Pd. replace (2 * (IZR mx / IZR (10 ^ ex)) - 1 + (2 * (IZR mx' / IZR (10 ^ ex')) - 1)) with (2 * ((IZR mx + IZR mx' * IZR (10 ^ (ex - ex')) - IZR (10 ^ ex)) * / IZR (10 ^ ex))) by (rewrite Er; field; lra).
    rewrite Rabs_mult, (Rabs_right 2) by lra. apply Rmult_le_compat_l; [lra|]. rewrite Rabs_mult, (Rabs_right (/ _)) by (apply Rle_ge; left; apply Rinv_0_lt_compat; assumption).
    apply (Rmult_le_reg_r (IZR (10 ^ ex))); [assumption|]. rewrite Rmult_assoc, Rinv_l by lra. lra.
  - replace (IZR mw / IZR (10 ^ ew) - IZR mw' / IZR (10 ^ ew)) with ((IZR mw - IZR mw') * / IZR (10 ^ ew)) by (field; lra). rewrite Rabs_mult, (Rabs_right (/ _)) by (apply Rle_ge; left; apply Rinv_0_lt_compat; assumption).
    apply (Rmult_le_reg_r (IZR (10 ^ ew))); [assumption|]. rewrite Rmult_assoc, Rinv_l by lra. lra.
Qed.
Lemma mid_zero q : node_ok q = true -> mid_ok q = true -> tnode q = 0.
Proof.
  intros Hq H. destruct (node_range q Hq) as (_ & _ & Ex & _). unfold mid_ok in H. apply Z.eqb_eq in H. unfold tnode, decimal. rewrite (p10_ok _ Ex) in H. apply (f_equal IZR) in H. rewrite mult_IZR in H. pose proof (p10_pos _ Ex). rewrite <- H in *. field. lra.
Qed.
Lemma hint_range q h : node_ok q = true -> hint_ok q h = true -> near (- tnode q) (fst h) 1 /\ near (wnode q) (snd h) 1 /\ (0 <= fst h <= unit_)%Z /\ (0 <= snd h <= unit_)%Z.
Proof.
  intros Hq. destruct (node_range q Hq) as (_ & _ & Ex & Ew). destruct q as [[mx ex] [mw ew]]. unfold hint_ok, tnode, wnode, decimal, near. cbn [fst snd] in *. rewrite !andb_true_iff, !Z.leb_le. intros (((((A & B) & C) & D) & E) & F).
  pose proof (p10_pos ex Ex) as Px. pose proof (p10_pos ew Ew) as Pw. rewrite !p10_ok in E, F by assumption. apply IZR_le in E, F. rewrite abs_IZR in E, F. rewrite minus_IZR, !mult_IZR in F. rewrite minus_IZR, !mult_IZR, minus_IZR, mult_IZR in E. split; [|split; [|split; split; assumption]].
  - replace (- (2 * (IZR mx / IZR (10 ^ ex)) - 1) * U - IZR (fst h)) with (((IZR (10 ^ ex) - 2 * IZR mx) * U - IZR (fst h) * IZR (10 ^ ex)) * / IZR (10 ^ ex)) by (field; lra).
    rewrite Rabs_mult, (Rabs_right (/ _)) by (apply Rle_ge; left; apply Rinv_0_lt_compat; assumption). apply (Rmult_le_reg_r (IZR (10 ^ ex))); [assumption|]. rewrite Rmult_assoc, Rinv_l by lra. lra.
  - replace (IZR mw / IZR (10 ^ ew) * U - IZR (snd h)) with ((IZR mw * U - IZR (snd h) * IZR (10 ^ ew)) * / IZR (10 ^ ew)) by (field; lra).
    rewrite Rabs_mult, (Rabs_right (/ _)) by (apply Rle_ge; left; apply Rinv_0_lt_compat; assumption). apply (Rmult_le_reg_r (IZR (10 ^ ew))); [assumption|]. rewrite Rmult_assoc, Rinv_l by lra. lra.
Qed.
