(** Lemmas for the packing of custom coefficients: histories of updates, a stable sort. *)
From Coq Require Import List ZArith Reals Lia Arith Sorting.Sorted Permutation.
From Verif Require Import M_PyBase M_PyFacets M_PyQuadUtils M_PyPack S_PyQuadUtils S_PyPack L_PyNodes L_PyFacets L_PyQuadUtils L_PyPack L_PyPack2 L_PyPack3 L_PyPack4 L_PyPack5 L_PyPack6.
Import ListNotations.
Local Open Scope nat_scope.

Lemma updates_ok ct cs nr : forall hist old mem, shape_ok ct nr cs old -> (forall rows, In rows hist -> shape_ok ct nr cs rows) -> nr * ncols ct cs <= length mem ->
  (forall r, r < nr -> seg mem (r * ncols ct cs) (map Num (nth r old []))) ->
  exists mem', updates ct cs hist mem = Ret mem' /\ length mem' = length mem
    /\ (forall r, r < nr -> seg mem' (r * ncols ct cs) (map Num (nth r (last hist old) [])))
    /\ (forall k, nr * ncols ct cs <= k \/ (exists r, r * ncols ct cs + cs * ratio ct <= k < (r + 1) * ncols ct cs) -> nth_error mem' k = nth_error mem k).
Proof.
  induction hist as [|rows hist IH]; intros old mem HO HH L S; cbn [updates].
  - exists mem. split; [reflexivity|]. split; [reflexivity|]. split; [exact S|reflexivity].
  - destruct (HH rows (or_introl eq_refl)) as [R1 R2].
    assert (NCs : cs * ratio ct + n_extra_cols ct * ratio ct = ncols ct cs) by (unfold ncols; lia).
    destruct (put_rows_ok (ncols ct cs) 0 (cs * ratio ct) ltac:(lia) (map (map Num) rows) 0 mem) as [m [E1 [L1 [S1 F1]]]].
    { intros r I. apply in_map_iff in I. destruct I as [r' [<- I]]. rewrite map_length. apply R2. exact I. }
    { rewrite map_length, R1. exact L. }
    unfold update. rewrite E1. cbn [bind]. rewrite map_length, R1 in S1, F1.
    assert (Sm : forall r, r < nr -> seg m (r * ncols ct cs) (map Num (nth r rows []))).
    { intros r Hr. specialize (S1 r Hr). cbn [Nat.add] in S1. rewrite Nat.add_0_r, (nth_map_d (map Num) []) in S1 by (rewrite R1; exact Hr). exact S1. }
    destruct (IH rows m (conj R1 R2)) as [mem' [E2 [L2 [S2 F2]]]].
    { intros x I. apply HH. right. exact I. } { lia. } { exact Sm. }
    exists mem'. split; [exact E2|]. split; [congruence|]. split.
    + intros r Hr. replace (last (rows :: hist) old) with (last hist rows). { apply S2. exact Hr. }
      destruct hist as [|h hist]; [reflexivity|]. cbn [last]. clear. revert h. induction hist as [|a hist IH]; intros h; [reflexivity|]. apply (IH a).
    + intros k Hk. rewrite F2 by exact Hk. apply F1. intros j Hj. cbn [Nat.add]. rewrite Nat.add_0_r.
      assert (M : (j + 1) * ncols ct cs <= nr * ncols ct cs) by (apply Nat.mul_le_mono_r; lia).
      destruct Hk as [Hk|[r Hk]]; [right; lia|].
      destruct (lt_eq_lt_dec j r) as [[l|e]|l].
      * right. assert ((j + 1) * ncols ct cs <= r * ncols ct cs) by (apply Nat.mul_le_mono_r; lia). lia.
      * subst j. right. lia.
      * left. assert ((r + 1) * ncols ct cs <= j * ncols ct cs) by (apply Nat.mul_le_mono_r; lia). lia.
Qed.

(** Insertion sort of positions: a stable argsort. *)
Fixpoint ins_at (l : list nat) (i : nat) (s : list nat) : list nat :=
  match s with [] => [i] | j :: s' => if nth i l 0 <=? nth j l 0 then i :: s else j :: ins_at l i s' end.
Definition nsort (l : list nat) : list nat := fold_right (ins_at l) [] (seq 0 (length l)).
Lemma ins_perm l i s : Permutation (ins_at l i s) (i :: s).
Proof. induction s as [|j s IH]; cbn; [apply Permutation_refl|]. destruct (_ <=? _); [apply Permutation_refl|]. rewrite IH. apply perm_swap. Qed.
Lemma ins_sorted l i s : (forall j, In j s -> i < j) -> StronglySorted (before l) s -> StronglySorted (before l) (ins_at l i s).
Proof.
  induction s as [|j s IH]; intros H SS; cbn; [repeat constructor|]. inversion SS as [|? ? S1 S2]; subst.
  destruct (Nat.leb_spec (nth i l 0) (nth j l 0)) as [Q|Q].
  - constructor; [exact SS|]. apply Forall_forall. intros k K. unfold before in *. specialize (H k K). destruct K as [<-|K]; [lia|]. assert (B := proj1 (Forall_forall _ _) S2 k K). cbn in B. lia.
  - constructor; [apply IH; [intros k K; apply H; right; exact K|exact S1]|]. apply Forall_forall. intros k K. apply (Permutation_in _ (ins_perm l i s)) in K. destruct K as [<-|K]; [unfold before; lia|]. exact (proj1 (Forall_forall _ _) S2 k K).
Qed.
Lemma nsort_ok : stable_argsort nsort.
Proof.
  intros l. unfold nsort. generalize (length l) as n. intros n.
  enough (G : forall s, Permutation (fold_right (ins_at l) [] (seq s n)) (seq s n) /\ StronglySorted (before l) (fold_right (ins_at l) [] (seq s n))) by exact (G 0).
  induction n as [|n IH]; intros s; cbn; [split; constructor|]. destruct (IH (S s)) as [P1 P2]. split.
  - rewrite ins_perm, P1. apply Permutation_refl.
  - apply ins_sorted; [|exact P2]. intros j J. apply (Permutation_in _ P1) in J. apply in_seq in J. lia.
Qed.
