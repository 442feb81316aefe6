From Verif Require Import M_Real M_Tolerance L_Real.
From Coq Require Import Lra Sorting.Sorted Permutation.
Open Scope R_scope.

Ltac rbool := repeat match goal with
  | |- context [Rltb ?x ?y] => destruct (Rltb_spec x y)
  | |- context [Rleb ?x ?y] => destruct (Rleb_spec x y)
  | H : context [Rltb ?x ?y] |- _ => destruct (Rltb_spec x y)
  | H : context [Rleb ?x ?y] |- _ => destruct (Rleb_spec x y)
  end.

Definition exactly_one (a b c : bool) : Prop :=
  (a = true /\ b = false /\ c = false) \/ (a = false /\ b = true /\ c = false) \/ (a = false /\ b = false /\ c = true).

Lemma C40_lemma : forall tol x y, 0 <= tol ->
  exactly_one (is_zero tol x) (is_negative tol x) (is_positive tol x) /\
  exactly_one (tol_equal tol x y) (greater_than tol x y) (smaller_than tol x y) /\
  (tol_equal tol x y = true <-> Rabs (x - y) <= tol) /\
  (greater_than tol x y = true <-> x > y + tol) /\
  tol_equal tol x x = true /\ tol_equal tol x y = tol_equal tol y x /\
  greater_equal_than tol x y = negb (smaller_than tol x y) /\
  smaller_equal_than tol x y = negb (greater_than tol x y) /\
  is_zero tol (x - y) = tol_equal tol x y /\
  (forall other, mk_tol other = Ret other -> tol <= tol_update tol other /\ other <= tol_update tol other) /\
  mk_tol tol = Ret tol /\ (forall v, v < 0 -> mk_tol v = Abort).
Proof.
  intros tol x y Ht.
  assert (forall z, Rabs z <= tol <-> - tol <= z <= tol) as Habs.
  { intros z. split; [intros H; unfold Rabs in H; destruct (Rcase_abs z); lra|]. intros; apply Rabs_le; lra. }
  assert (forall z, ~ Rabs z <= tol -> z < - tol \/ z > tol) as Hnabs.
  { intros z H. rewrite Habs in H. lra. }
  assert (Rabs (x - x) <= tol) by (replace (x - x) with 0 by lra; rewrite Rabs_R0; lra).
  unfold exactly_one, is_zero, is_negative, is_positive, smaller_equal_than, greater_equal_than, smaller_than, greater_than, tol_equal, mk_tol, tol_update.
  rewrite (Rabs_minus_sym y x).
  repeat split.
  all: try (intros v Hv).
  all: try (apply Rmax_l). all: try (apply Rmax_r).
  all: rbool; cbn; try reflexivity; try tauto; try discriminate; try (intros; lra).
  all: exfalso; repeat match goal with
       | Ha : forall z, Rabs z <= _ <-> _, H : Rabs _ <= _ |- _ => apply Ha in H
       | Hn : forall z, ~ Rabs z <= _ -> _, H : ~ Rabs _ <= _ |- _ => apply Hn in H
       end; lra.
Qed.

(** ** sort and unique *)
Lemma rinsert_perm x l : Permutation (x :: l) (rinsert x l).
Proof.
  induction l as [|y l IH]; simpl; auto. destruct (Rleb x y); auto.
  apply Permutation_trans with (y :: x :: l); [constructor|]. now constructor.
Qed.
Lemma rsort_perm l : Permutation l (rsort l).
Proof. induction l as [|x l IH]; simpl; auto. apply Permutation_trans with (x :: rsort l); auto. apply rinsert_perm. Qed.
Lemma rinsert_sorted x l : StronglySorted Rle l -> StronglySorted Rle (rinsert x l).
Proof.
  induction 1 as [|y l Hs IH Hy]; simpl; [repeat constructor|]. destruct (Rleb_spec x y) as [C|C].
  - constructor; [constructor; auto|]. constructor; auto. eapply Forall_impl; [|exact Hy]. simpl; intros; lra.
  - constructor; auto. apply (Permutation_Forall (rinsert_perm x l)). constructor; [lra|auto].
Qed.
Lemma rsort_sorted l : StronglySorted Rle (rsort l).
Proof. induction l; simpl; [constructor|]. now apply rinsert_sorted. Qed.

(** Consecutive values of [last :: kept] differ by more than tol. *)
Fixpoint gaps (tol : R) (l : list R) : Prop :=
  match l with x :: ((y :: _) as l') => y - x > tol /\ gaps tol l' | _ => True end.

Lemma unique_from_spec tol last l : 0 <= tol -> StronglySorted Rle (last :: l) ->
  gaps tol (last :: unique_from (tol_equal tol) last l) /\
  (exists rest, Permutation l (unique_from (tol_equal tol) last l ++ rest)) /\
  (forall v, In v l -> exists w, In w (last :: unique_from (tol_equal tol) last l) /\ Rabs (v - w) <= tol).
Proof.
  intros Ht. revert last. induction l as [|x l IH]; intros last Hs.
  { cbn. repeat split; [exists []; constructor|intros; contradiction]. }
  inversion Hs as [|? ? Hs' Hf]; subst. inversion Hf as [|? ? Hlx Hf']; subst.
  cbn [unique_from]. destruct (tol_equal tol last x) eqn:E; unfold tol_equal in E.
  - apply Rleb_true in E. destruct (IH last) as (H1 & (rest & H2) & H3).
    { constructor; auto. inversion Hs'; auto. }
    split; [exact H1|]. split.
    { exists (x :: rest). apply Permutation_cons_app. exact H2. }
    intros v [<-|Hv]; [|now apply H3]. exists last. split; [now left|]. now rewrite Rabs_minus_sym.
  - apply Rleb_false in E. destruct (IH x Hs') as (H1 & (rest & H2) & H3). split.
    + split; [|exact H1]. unfold Rabs in E. destruct (Rcase_abs (last - x)); lra.
    + split; [exists rest; now constructor|]. intros v [<-|Hv].
      * exists x. split; [right; now left|]. replace (x - x) with 0 by lra. rewrite Rabs_R0. lra.
      * destruct (H3 v Hv) as (w & Hw & Hd). exists w. split; [now right|auto].
Qed.

Lemma gaps_nth tol l : gaps tol l -> forall i, (S i < length l)%nat -> nth (S i) l 0 - nth i l 0 > tol.
Proof.
  induction l as [|x l IH]; intros H i Hi; simpl in Hi; [lia|]. destruct l as [|y l]; [simpl in Hi; lia|].
  destruct H as [H1 H2]. destruct i as [|i]; [exact H1|]. apply (IH H2 i). simpl in *; lia.
Qed.

Lemma C41_lemma : forall tol values, 0 <= tol -> let u := tol_unique tol values in
  (forall i, (S i < length u)%nat -> nth (S i) u 0 - nth i u 0 > tol) /\
  (exists rest, Permutation values (u ++ rest)) /\
  (forall v, In v values -> exists w, In w u /\ Rabs (v - w) <= tol).
Proof.
  intros tol values Ht u. unfold u, tol_unique, unique_list.
  pose proof (rsort_perm values) as Hp. pose proof (rsort_sorted values) as Hs.
  destruct (rsort values) as [|x l].
  { apply Permutation_sym, Permutation_nil in Hp. subst. split; [simpl; intros; lia|].
    split; [exists []; constructor|]. intros v []. }
  destruct (unique_from_spec tol x l Ht Hs) as (H1 & (rest & H2) & H3).
  split; [now apply gaps_nth|]. split.
  - exists rest. eapply Permutation_trans; [exact Hp|]. now constructor.
  - intros v Hv. apply (Permutation_in _ Hp) in Hv. destruct Hv as [<-|Hv]; [|now apply H3].
    exists x. split; [now left|]. replace (x - x) with 0 by lra. rewrite Rabs_R0. lra.
Qed.
