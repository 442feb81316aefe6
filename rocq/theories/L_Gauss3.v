(** Moments of the tables. *)
From Coq Require Import Reals ZArith List Lia Lra Bool.
From Verif Require Import M_GaussData M_TanhSinhData L_GaussHints L_Gauss L_Gauss2.
Import ListNotations.
Local Open Scope R_scope.

Definition rsum {A} (f : A -> R) (l : list A) : R := fold_right (fun x a => f x + a) 0 l.
Lemma rsum_app {A} (f : A -> R) l m : rsum f (l ++ m) = rsum f l + rsum f m.
Proof. induction l as [|x l IH]; [cbn [app]; unfold rsum at 2; cbn [fold_right]; ring|]. cbn [rsum fold_right app]. fold (rsum f (l ++ m)) (rsum f l). rewrite IH. lra. Qed.
Lemma rsum_rev {A} (f : A -> R) l : rsum f (rev l) = rsum f l.
Proof. induction l as [|x l IH]; [reflexivity|]. cbn [rev]. rewrite rsum_app, IH. cbn [rsum fold_right]. fold (rsum f l). lra. Qed.
Lemma rsum_ext {A} (f g : A -> R) l : (forall x, In x l -> f x = g x) -> rsum f l = rsum g l.
Proof. induction l as [|x l IH]; intros H; [reflexivity|]. cbn [rsum fold_right]. fold (rsum f l) (rsum g l). rewrite IH by (intros; apply H; right; assumption). rewrite (H x (or_introl eq_refl)). reflexivity. Qed.

(** The state of the computation of moments, for one node: s = t^2 and its approximation, p = w t^(2j) and its approximation. *)
Notation mstate := (R * Z * (R * Z))%type.
Definition inv (e : R) (x : mstate) : Prop :=
  let '((s, ss), (p, ps)) := x in near s ss 3 /\ 0 <= s <= 1 /\ (0 <= ss <= unit_)%Z /\ near p ps e /\ 0 <= p <= 1 /\ (0 <= ps <= unit_)%Z.
Definition next (x : mstate) : mstate := let '((s, ss), (p, ps)) := x in ((s, ss), (p * s, fmul ps ss)).
Lemma inv_next e x : inv e x -> inv (e + 4) (next x).
Proof.
  destruct x as [[s ss] [p ps]]. intros (A & B & C & D & E & F). cbn [inv next]. split; [exact A|]. split; [exact B|]. split; [exact C|].
  split; [replace (e + 4) with (e + 3 + 1) by ring; apply near_mul; [assumption|assumption|lra|split; apply IZR_le; lia]|]. split; [split; nra|]. apply fmul_range; assumption.
Qed.
Lemma near_sum e L : Forall (inv e) L -> Rabs (rsum (fun x => fst (snd x)) L * U - IZR (fold_right Z.add 0%Z (map (fun x : mstate => snd (snd x)) L))) <= INR (length L) * e.
Proof.
  induction 1 as [|x L Hx HL IH]; [cbn; rewrite Rmult_0_l, Rminus_diag_eq, Rabs_R0 by reflexivity; lra|]. destruct x as [[s ss] [p ps]]. destruct Hx as (_ & _ & _ & D & _). unfold near in D.
  cbn [rsum fold_right map fst snd length]. fold (rsum (fun x : mstate => fst (snd x)) L). rewrite plus_IZR, S_INR. apply Rabs_le_between in D, IH. apply Rabs_le_between. lra.
Qed.
Lemma moments_sound fuel : forall k mid e (L : list mstate), (1 <= k)%Z -> moments_ok fuel k mid (map (fun x => snd (fst x)) L) (map (fun x => snd (snd x)) L) = true -> Forall (inv e) L ->
  forall i, (i < fuel)%nat -> Rabs ((2 * rsum (fun x => fst (snd x) * fst (fst x) ^ i) L) * U + (if (i =? 0)%nat then IZR mid else 0) - U / (IZR k + 2 * INR i)) <= IZR slack + 2 * INR (length L) * (e + 4 * INR i).
Proof.
  induction fuel as [|fuel IH]; intros k mid e L Hk H HL i Hi; [lia|]. cbn [moments_ok] in H. apply andb_prop in H as [H1 H2]. destruct i as [|i].
  - cbn [Nat.eqb INR]. apply Z.leb_le, IZR_le in H1. rewrite abs_IZR, minus_IZR, !mult_IZR, plus_IZR, mult_IZR in H1. pose proof (near_sum e L HL) as N.
    rewrite (rsum_ext _ (fun x : mstate => fst (snd x))) by (intros; rewrite pow_O; ring). set (s := rsum _ L) in *. set (z := IZR (fold_right Z.add 0%Z _)) in *.
    assert (Hk' : 1 <= IZR k) by (apply IZR_le; assumption). apply Rabs_le_between in H1, N. apply Rabs_le_between.
    assert (B : - IZR slack <= 2 * z + IZR mid - U / IZR k <= IZR slack).
    { replace (2 * z + IZR mid - U / IZR k) with ((IZR k * (2 * z + IZR mid) - U) / IZR k) by (field; lra).
      split; [apply (Rmult_le_reg_r (IZR k)); [lra|]|apply (Rmult_le_reg_r (IZR k)); [lra|]]; unfold Rdiv; rewrite (Rmult_assoc _ (/ IZR k) _), Rinv_l by lra; lra. }
    replace (IZR k + 2 * 0) with (IZR k) by ring. lra.
  - assert (E1 : map (fun x : mstate => snd (fst x)) (map next L) = map (fun x : mstate => snd (fst x)) L) by (rewrite map_map; apply map_ext; intros [[s ss] [p ps]]; reflexivity).
    assert (E2 : map (fun x : mstate => snd (snd x)) (map next L) = map (fun ps => fmul (fst ps) (snd ps)) (combine (map (fun x : mstate => snd (snd x)) L) (map (fun x : mstate => snd (fst x)) L))).
    { clear. induction L as [|[[s ss] [p ps]] L IH]; [reflexivity|]. cbn [map combine next fst snd]. rewrite IH. reflexivity. }
    rewrite <- E2, <- E1 in H2. assert (HL' : Forall (inv (e + 4)) (map next L)) by (apply Forall_map; eapply Forall_impl; [|exact HL]; intros x; apply inv_next).
    specialize (IH (k + 2)%Z 0%Z (e + 4) (map next L) ltac:(lia) H2 HL' i ltac:(lia)). rewrite map_length in IH. replace (Nat.eqb (S i) 0) with false by reflexivity. rewrite S_INR.
    assert (E3 : rsum (fun x : mstate => fst (snd x) * fst (fst x) ^ i) (map next L) = rsum (fun x : mstate => fst (snd x) * fst (fst x) ^ S i) L).
    { clear. induction L as [|[[s ss] [p ps]] L IH]; [reflexivity|]. cbn [map rsum fold_right next fst snd]. fold (rsum (fun x : mstate => fst (snd x) * fst (fst x) ^ i) (map next L)) (rsum (fun x : mstate => fst (snd x) * fst (fst x) ^ S i) L). rewrite IH. cbn [pow]. ring. }
    rewrite E3, plus_IZR in IH. replace (IZR k + 2 * (INR i + 1)) with (IZR k + 2 + 2 * INR i) by ring. replace (e + 4 * (INR i + 1)) with (e + 4 + 4 * INR i) by ring.
    destruct (i =? 0)%nat; exact IH.
Qed.

(** ** Symmetric rules *)
Lemma all2_in {A B} (f : A -> B -> bool) l m : all2 f l m = true -> forall a b, In (a, b) (combine l m) -> f a b = true.
Proof. intros H a b Hin. unfold all2 in H. rewrite forallb_forall in H. apply (H (a, b) Hin). Qed.
Lemma pow_diff a b k : Rabs a <= 1 -> Rabs b <= 1 -> Rabs (a ^ k - b ^ k) <= INR k * Rabs (a - b).
Proof.
  intros Ha Hb. induction k as [|k IH]; [cbn; rewrite Rminus_diag_eq, Rabs_R0 by reflexivity; lra|]. rewrite S_INR. cbn [pow].
  replace (a * a ^ k - b * b ^ k) with (a * (a ^ k - b ^ k) + (a - b) * b ^ k) by ring. eapply Rle_trans; [apply Rabs_triang|]. rewrite !Rabs_mult.
  assert (Rabs (b ^ k) <= 1) by (rewrite <- RPow_abs; rewrite <- (pow1 k); apply pow_incr; split; [apply Rabs_pos|assumption]).
  pose proof (Rabs_pos (a ^ k - b ^ k)). pose proof (Rabs_pos (a - b)). pose proof (Rabs_pos a). nra.
Qed.
