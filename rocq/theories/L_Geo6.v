(** Position of the points: linear functions. *)
From Coq Require Import Reals List Lia Lra Permutation Sorted Arith ZArith.
From Verif Require Import M_General S_General S_Geo S_Affine S_Mesh L_Real L_BBox L_Point L_Roots.
Import ListNotations.
Local Close Scope Z_scope. Local Close Scope nat_scope. Local Open Scope R_scope.

(** The oracles of the function a . p - b: no information from interval arithmetic on the values but the exact gradient; the root finder solves the linear
    equation. *)
Definition lin (a : list R) (b : R) (p : list R) : R := inner a p - b.
Definition lin_roots (a : list R) (b : R) (pt : list R) (k : nat) (x0 x1 : R) : list R :=
  if Req_EM_T (nth k a 0) 0 then [] else filter (fun r => (Rleb x0 r && Rleb r x1)%bool) [nth k pt 0 - lin a b pt / nth k a 0].
Definition lin_oracles (a : list R) (b : R) : oracles :=
  mk_oracles (lin a b) (fun _ _ _ => (0, false)) (fun _ _ _ k => (nth k a 0, 0, if Req_EM_T (nth k a 0) 0 then false else true))
    (fun (S inc : bool) _ => if S then (if inc then (-1, 1) else (1, -1))%Z else (if inc then (-1, 0) else (0, -1))%Z)
    (fun pt k x0 x1 _ => lin_roots a b pt k x0 x1) L_Roots.rsort_ins (fun i n => INR i / INR (n - 1)) (mk_psi (repeat 0%nat (length a)) 0) (repeat 0 (length a)).

Lemma sum_set (f g : nat -> R) k v : forall n s, (s <= k < s + n)%nat -> (forall i, (s <= i < s + n)%nat -> i <> k -> f i = g i) -> f k = g k + v ->
  fold_right Rplus 0 (map f (seq s n)) = fold_right Rplus 0 (map g (seq s n)) + v.
Proof.
  induction n as [|n IH]; intros s Hk He Hv; [lia|]. cbn [seq map fold_right]. destruct (Nat.eq_dec s k) as [->|Hn].
  - rewrite Hv. rewrite (map_ext_in f g); [ring|]. intros i Hi. apply in_seq in Hi. apply He; lia.
  - rewrite (IH (S s)); [rewrite (He s) by lia; ring|lia|intros; apply He; lia|exact Hv].
Qed.
Lemma lin_set a b pt k t : length pt = length a -> (k < length a)%nat -> lin a b (set_at pt k t) = lin a b pt + nth k a 0 * (t - nth k pt 0).
Proof.
  intros Hl Hk. unfold lin, inner. rewrite (sum_set (fun i => nth i a 0 * nth i (set_at pt k t) 0) (fun i => nth i a 0 * nth i pt 0) k (nth k a 0 * (t - nth k pt 0))); [ring|lia| |].
  - intros i _ Hi. rewrite set_at_nth. destruct (Nat.eqb_spec k i); [congruence|reflexivity].
  - rewrite set_at_nth, Nat.eqb_refl. destruct (Nat.ltb_spec k (length pt)); [ring|lia].
Qed.
Lemma set_at_out (pt : list R) k t : (length pt <= k)%nat -> set_at pt k t = pt.
Proof. intros H. apply (nth_ext _ _ 0 0); [apply set_at_length|]. intros i Hi. rewrite set_at_length in Hi. rewrite set_at_nth. destruct (Nat.eqb_spec k i); [lia|reflexivity]. Qed.
Lemma lin_diff a b pt k s t : length pt = length a -> lin a b (set_at pt k t) - lin a b (set_at pt k s) = nth k a 0 * (t - s).
Proof.
  intros Hl. destruct (Nat.lt_ge_cases k (length a)) as [Hk|Hk]; [rewrite !lin_set by assumption; ring|]. rewrite !set_at_out by lia. rewrite (nth_overflow a) by lia. ring.
Qed.
Lemma lin_sound a b : sound (lin_oracles a b) (length a).
Proof.
  constructor; [|exact L_Roots.rsort_ins_ok| |apply repeat_length].
  - intros pt d x0 x1 flag _. apply Forall_forall. intros r Hr. cbn [lin_oracles o_root_find] in Hr. unfold lin_roots in Hr. destruct (Req_EM_T _ _); [destruct Hr|]. apply filter_In in Hr as [_ H]. apply andb_prop in H as [H1 H2]. apply Rleb_true in H1, H2. split; assumption.
  - intros i n Hi. cbn [lin_oracles o_cheb]. destruct n as [|[|n]]; [lia|assert (i = 0%nat) by lia; subst; cbn; unfold Rdiv; rewrite Rmult_0_l; lra|].
    replace (S (S n) - 1)%nat with (S n) by lia. assert (0 < INR (S n)) by (apply lt_0_INR; lia). assert (INR i <= INR (S n)) by (apply le_INR; lia). pose proof (pos_INR i).
    split; [apply Rmult_le_pos; [assumption|left; apply Rinv_0_lt_compat; assumption]|]. apply (Rmult_le_reg_r (INR (S n))); [assumption|]. unfold Rdiv. rewrite Rmult_assoc, Rinv_l by lra. lra.
Qed.
Lemma lin_exact a b dom : length (bmin dom) = length a -> exact (lin_oracles a b) dom.
Proof.
  intros Hd. assert (Len : forall pt k t, in_box dom (set_at pt k t) -> length pt = length a) by (intros pt k t [H _]; rewrite set_at_length in H; congruence).
  assert (Out : forall k, (length a <= k)%nat -> nth k a 0 = 0) by (intros k Hk; apply nth_overflow; lia).
  constructor; cbn [lin_oracles o_phi o_value o_grad o_signs o_root_find fst snd].
  - intros pt k x0 x1 _ r H0 _ Hr. unfold lin_roots in Hr. destruct (Req_EM_T (nth k a 0) 0) as [|Hn]; [destruct Hr|]. apply filter_In in Hr as [[<-|[]] _]. destruct (Nat.lt_ge_cases k (length a)) as [Hk|Hk]; [|specialize (Out k Hk); contradiction].
    rewrite lin_set by (assumption || eapply Len; eassumption). field. exact Hn.
  - intros pt k x0 x1 _. unfold lin_roots. destruct (Req_EM_T (nth k a 0) 0); [constructor|]. apply NoDup_filter. constructor; [intros []|constructor].
  - intros pt k x0 x1 _ s t H0 _ Hs Ht Hz Hne. assert (Lp := Len _ _ _ H0). assert (Df := lin_diff a b pt k s t Lp). unfold lin_roots. destruct (Req_EM_T (nth k a 0) 0) as [E|Hn]; [rewrite E in Df; lra|].
    destruct (Nat.lt_ge_cases k (length a)) as [Hk|Hk]; [|specialize (Out k Hk); contradiction]. set (r := nth k pt 0 - lin a b pt / nth k a 0). rewrite !lin_set in Hz by assumption.
    assert (Er : lin a b pt = nth k a 0 * (nth k pt 0 - r)) by (unfold r; field; exact Hn). rewrite Er in Hz. assert (Rmin s t <= r <= Rmax s t). { unfold Rmin, Rmax. destruct (Rle_dec s t); destruct (Rle_or_lt 0 (nth k a 0)); nra. }
    assert (x0 <= r <= x1) by (unfold Rmin, Rmax in *; destruct (Rle_dec s t); lra). exists r. split; [|assumption]. apply filter_In. split; [left; reflexivity|]. apply andb_true_intro. rewrite !Rleb_true. assumption.
  - intros free bx p x _ H. discriminate.
  - intros free bx p k x s t Wb Hf Hg [H0 _] _ Hst. destruct Wb as (W1 & _). assert (Lp : length x = length a) by (destruct H0 as [H0 _]; rewrite set_at_length in H0; congruence). rewrite lin_diff by assumption. destruct (Req_EM_T (nth k a 0) 0); [discriminate|]. assert (0 < nth k a 0 * nth k a 0) by nra. nra.
  - reflexivity.
  - reflexivity.
Qed.
Lemma lin_lipschitz a b dom L : length (bmin dom) = length a -> 0 <= L -> (forall k, (k < length a)%nat -> Rabs (nth k a 0) <= L) -> lipschitz (lin a b) L dom.
Proof.
  intros Hd HL Ha x d s t [H0 _] _. rewrite set_at_length in H0. rewrite lin_diff by congruence. rewrite Rabs_mult. apply Rmult_le_compat_r; [apply Rabs_pos|]. destruct (Nat.lt_ge_cases d (length a)) as [Hk|Hk]; [apply Ha, Hk|]. rewrite nth_overflow by lia. rewrite Rabs_R0. exact HL.
Qed.
