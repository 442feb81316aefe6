(** Lemmas on sorted lists, distributions and grids. *)
From Coq Require Import List Arith Bool Lia ZArith Permutation Sorting.Sorted Reals Lra.
From Verif Require Import M_Domain M_Grid S_Domain L_Domain L_DomainQ L_DomainT L_Grid P_Domain.
From Verif Require Import M_PyBase M_PyNodes M_PyFacets M_PyTp M_PyMesh M_PyTpMesh M_PyUnf S_PyTp S_PyTpMesh S_PyMesh S_PyFacets S_PyUnf L_PyNodes L_PyFacets L_PyMesh P_PyMesh L_PyTp L_PyTpMesh2 P_PyUnf M_PyUnfMesh S_PyUnfMesh.
Import ListNotations. Local Close Scope R_scope.
Local Open Scope Z_scope.

Lemma sorted_ext : forall a b : list Z, StronglySorted Z.lt a -> StronglySorted Z.lt b -> (forall x, In x a <-> In x b) -> a = b.
Proof.
  induction a as [|x a IH]; intros [|y b] Sa Sb H; auto.
  - exfalso. apply (proj2 (H y)); cbn; auto.
  - exfalso. apply (proj1 (H x)); cbn; auto.
  - inversion Sa as [|? ? Sa' Fa]; inversion Sb as [|? ? Sb' Fb]; subst. rewrite Forall_forall in Fa, Fb.
    assert (x = y). { destruct (proj1 (H x) ltac:(cbn; auto)) as [E|I]; [congruence|]. destruct (proj2 (H y) ltac:(cbn; auto)) as [E|I']; [congruence|]. apply Fb in I. apply Fa in I'. lia. }
    subst y. f_equal. apply IH; auto. intros z. split; intros I.
    + destruct (proj1 (H z) ltac:(cbn; auto)) as [E|I']; auto. subst z. apply Fa in I. lia.
    + destruct (proj2 (H z) ltac:(cbn; auto)) as [E|I']; auto. subst z. apply Fb in I. lia.
Qed.
Lemma sorted_lt_nodup (a : list Z) : StronglySorted Z.lt a -> NoDup a.
Proof. induction 1 as [|x a S IH F]; constructor; auto. intros I. rewrite Forall_forall in F. apply F in I. lia. Qed.
Lemma sorted_zseq m n : StronglySorted Z.lt (map Z.of_nat (seq m n)).
Proof. revert m. induction n as [|n IH]; intros m; cbn; constructor; auto. apply Forall_forall. intros x Hx. apply in_map_iff in Hx. destruct Hx as (k & <- & Hk). apply in_seq in Hk. lia. Qed.
Lemma in_zseq n x : In x (map Z.of_nat (seq 0 n)) <-> 0 <= x < Z.of_nat n.
Proof. rewrite in_map_iff. split; [intros (k & <- & Hk); apply in_seq in Hk; lia|]. intros H. exists (Z.to_nat x). split; [lia|]. apply in_seq. lia. Qed.
Lemma sorted_le_lt (a : list Z) : StronglySorted Z.le a -> NoDup a -> StronglySorted Z.lt a.
Proof.
  induction 1 as [|x a S IH F]; intros N; constructor; inversion N as [|? ? Nx Na]; subst; auto. rewrite Forall_forall in *. intros y Hy.
  specialize (F y Hy). assert (x <> y) by (intros ->; auto). lia.
Qed.
(** A strictly increasing list of n numbers below n is 0, 1, ..., n-1. *)
Lemma full_sorted (a : list Z) n : StronglySorted Z.lt a -> (forall c, In c a -> 0 <= c < Z.of_nat n) -> length a = n -> a = map Z.of_nat (seq 0 n).
Proof.
  intros Sa Ra La. apply sorted_ext; auto using sorted_zseq. intros x. rewrite in_zseq. split; [apply Ra|]. intros Hx.
  apply (NoDup_length_incl (l := a) (l' := map Z.of_nat (seq 0 n))); [apply sorted_lt_nodup; auto|rewrite map_length, seq_length; lia| |apply in_zseq; auto].
  intros y Hy. apply in_zseq. auto.
Qed.
Lemma nodup_app_l {A} (l l' : list A) : NoDup (l ++ l') -> NoDup l /\ NoDup l' /\ forall x, In x l -> In x l' -> False.
Proof.
  induction l as [|x l IH]; cbn; intros N; [repeat split; auto; constructor|]. inversion N as [|? ? Nx N']; subst. destruct (IH N') as (A1 & A2 & A3).
  split; [constructor; auto; intros I; apply Nx; apply in_or_app; auto|]. split; auto. intros y [<-|I] I'; [apply Nx; apply in_or_app; auto|eauto].
Qed.
Lemma concat_unique {A} (L : list (list A)) : NoDup (concat L) -> forall r r' l l' x, nth_error L r = Some l -> nth_error L r' = Some l' -> In x l -> In x l' -> r = r'.
Proof.
  induction L as [|a L IH]; intros N r r' l l' x Hr Hr' I I'; [destruct r; discriminate|]. cbn in N. apply nodup_app_l in N. destruct N as (_ & N & D).
  destruct r as [|r], r' as [|r']; cbn in Hr, Hr'; auto.
  - injection Hr as <-. exfalso. apply (D x); auto. apply in_concat. exists l'. split; auto. eapply nth_error_In; eauto.
  - injection Hr' as <-. exfalso. apply (D x); auto. apply in_concat. exists l. split; auto. eapply nth_error_In; eauto.
  - f_equal. eapply IH; eauto.
Qed.

(** The original cell of the position p: entry p of the list of active cells (all the cells if there is none). *)
Definition act (active : option (list Z)) (n : nat) : list Z := match active with Some a => a | None => map Z.of_nat (seq 0 n) end.
Definition act_ok (active : option (list Z)) (n : nat) : Prop := StronglySorted Z.lt (act active n) /\ forall c, In c (act active n) -> 0 <= c < Z.of_nat n.
Lemma act_none n : act_ok None n.
Proof. split; [apply sorted_zseq|]. intros c. cbn. apply in_zseq. Qed.
Lemma nth_zseq n k d : (k < n)%nat -> nth k (map Z.of_nat (seq 0 n)) d = Z.of_nat k.
Proof. intros H. rewrite (nth_indep _ d (Z.of_nat 0)) by (rewrite map_length, seq_length; auto). rewrite map_nth, seq_nth; auto. Qed.
Lemma effective_same (active : option (list Z)) n k : act_ok active n -> (forall i, In i k -> 0 <= i < Z.of_nat (length (act active n))) ->
  forall rows nodes, (rows = n \/ rows = 0%nat) ->
  let m := {| original_cell_index := k; active_cells := effective_active active rows; input_global_indices := nodes; merged_nodes_map := [] |} in
  forall i c, original_of m i c <-> 0 <= i < Z.of_nat (length k) /\ nth (Z.to_nat (nth (Z.to_nat i) k 0)) (act active n) (-1) = c.
Proof.
  intros (Sa & Ra) Rk rows nodes Hrows m i c. unfold original_of. cbn [original_cell_index active_cells]. unfold m; cbn [original_cell_index active_cells].
  assert (X : forall i, 0 <= i < Z.of_nat (length k) -> In (nth (Z.to_nat i) k 0) k) by (intros; apply nth_In; lia).
  destruct active as [a|]; cbn [act effective_active] in *.
  - destruct (Nat.eqb_spec (length a) rows) as [E|E]; [|tauto].
    assert (a = map Z.of_nat (seq 0 (length a))) as Ea.
    { destruct Hrows as [->|Hr]; [apply full_sorted; auto; rewrite E; auto|]. assert (a = []) as -> by (destruct a; [auto|cbn in E; lia]). reflexivity. }
    split; intros (Hi & H); split; auto; specialize (Rk _ (X i Hi)).
    + rewrite Ea, nth_zseq; lia.
    + rewrite Ea, nth_zseq in H; lia.
  - rewrite map_length, seq_length in Rk. split; intros (Hi & H); split; auto; specialize (Rk _ (X i Hi)).
    + rewrite nth_zseq; lia.
    + rewrite nth_zseq in H; lia.
Qed.
Lemma process_cells (active : option (list Z)) n k rows nodes : act_ok active n -> (forall i, In i k -> 0 <= i < Z.of_nat (length (act active n))) -> NoDup k -> (rows = n \/ rows = 0%nat) ->
  cells_of_process {| original_cell_index := k; active_cells := effective_active active rows; input_global_indices := nodes; merged_nodes_map := [] |} n.
Proof.
  intros (Sa & Ra) Rk Nk Hrows. split; [exact Nk|]. cbn [active_cells original_cell_index]. destruct active as [a|]; cbn [act effective_active] in *.
  - destruct (Nat.eqb_spec (length a) rows) as [E|E].
    + intros i Hi. specialize (Rk i Hi). destruct Hrows as [->|Hr]; [lia|]. lia.
    + split; [apply sorted_lt_nodup; auto|]. split; auto.
  - rewrite map_length, seq_length in Rk. exact Rk.
Qed.
Lemma handed_rows {A} (d : A) (conn : list A) active : act_ok active (length conn) ->
  dolfinx_conn active conn = Ret (map (fun c => nth (Z.to_nat c) conn d) (act active (length conn))).
Proof.
  intros (Sa & Ra). unfold dolfinx_conn. destruct active as [a|]; cbn [effective_active act] in *.
  - destruct (Nat.eqb_spec (length a) (length conn)) as [E|E]; [|apply take_zids_ok; auto].
    rewrite (full_sorted a (length conn)) by auto. rewrite map_map. rewrite (map_ext _ (fun k => nth k conn d)) by (intros; rewrite Nat2Z.id; auto). rewrite map_nth_seq. reflexivity.
  - rewrite map_map. rewrite (map_ext _ (fun k => nth k conn d)) by (intros; rewrite Nat2Z.id; auto). rewrite map_nth_seq. reflexivity.
Qed.
