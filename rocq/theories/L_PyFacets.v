From Coq Require Import List Arith Bool Lia Permutation Sorting.Sorted.
From Verif Require Import M_PyBase M_PyNodes M_PyFacets S_PyFacets L_PyNodes L_PyTp.
Import ListNotations.
Local Open Scope nat_scope.

Lemma feqb_iff a b : facet_eqb a b = true <-> a = b.
Proof. destruct a as [a1 a2], b as [b1 b2]. unfold facet_eqb. cbn. rewrite andb_true_iff, !Nat.eqb_eq. split; [intros (-> & ->); auto|intros E; injection E; auto]. Qed.
Lemma feqb_false a b : facet_eqb a b = false <-> a <> b.
Proof. rewrite <- (feqb_iff a b). destruct (facet_eqb a b); split; congruence. Qed.
Lemma fltb_iff a b : facet_ltb a b = true <-> facet_lt a b.
Proof. unfold facet_ltb, facet_lt. rewrite orb_true_iff, andb_true_iff, Nat.eqb_eq, !Nat.ltb_lt. tauto. Qed.
Lemma mem_iff x l : mem_f x l = true <-> In x l.
Proof. unfold mem_f. rewrite existsb_exists. split; [intros (y & Hy & E); apply feqb_iff in E; subst; auto|intros H; exists x; split; auto; apply feqb_iff; auto]. Qed.
Lemma flt_tri a b : facet_lt a b \/ a = b \/ facet_lt b a.
Proof. destruct a as [a1 a2], b as [b1 b2]. unfold facet_lt. cbn. destruct (Nat.lt_trichotomy a1 b1) as [H|[->|H]]; auto. destruct (Nat.lt_trichotomy a2 b2) as [H|[->|H]]; auto. Qed.
Lemma flt_trans a b c : facet_lt a b -> facet_lt b c -> facet_lt a c.
Proof. unfold facet_lt. lia. Qed.
Lemma flt_irr a : ~ facet_lt a a.
Proof. unfold facet_lt. lia. Qed.
Definition facet_le a b := a = b \/ facet_lt a b.
Lemma fle_trans a b c : facet_le a b -> facet_le b c -> facet_le a c.
Proof. intros [->|H] [->|K]; unfold facet_le; auto. right. eapply flt_trans; eauto. Qed.
Lemma insert_perm x l : Permutation (insert_f x l) (x :: l).
Proof. induction l as [|y l IH]; cbn; auto. destruct (facet_ltb y x); auto. rewrite IH. constructor. Qed.
Lemma sort_perm l : Permutation (sort_f l) l.
Proof. induction l as [|x l IH]; cbn; auto. rewrite insert_perm. auto. Qed.
Lemma insert_sorted x l : StronglySorted facet_le l -> StronglySorted facet_le (insert_f x l).
Proof.
  induction 1 as [|y l S IH F]; cbn; [repeat constructor|]. destruct (facet_ltb y x) eqn:E.
  - apply fltb_iff in E. constructor; auto. apply Forall_forall. intros z Hz. apply (Permutation_in _ (insert_perm x l)) in Hz. destruct Hz as [<-|Hz]; [right; auto|]. rewrite Forall_forall in F. auto.
  - assert (L : facet_le x y). { destruct (flt_tri x y) as [H|[H|H]]; [right; auto|left; auto|]. apply fltb_iff in H. congruence. }
    constructor; [constructor; auto|]. constructor; auto. eapply Forall_impl; [|exact F]. intros z Hz. eapply fle_trans; eauto.
Qed.
Lemma sort_sorted l : StronglySorted facet_le (sort_f l).
Proof. induction l as [|x l IH]; cbn; [constructor|]. apply insert_sorted; auto. Qed.
Lemma dedup_in l x : In x (dedup_f l) <-> In x l.
Proof.
  induction l as [|y l IH]; [tauto|]. destruct l as [|z l]; [tauto|]. change (dedup_f (y :: z :: l)) with (if facet_eqb y z then dedup_f (z :: l) else y :: dedup_f (z :: l)).
  destruct (facet_eqb y z) eqn:E.
  - apply feqb_iff in E. subst z. rewrite IH. cbn. tauto.
  - cbn [In]. rewrite IH. cbn. tauto.
Qed.
Lemma dedup_sorted l : StronglySorted facet_le l -> StronglySorted facet_lt (dedup_f l).
Proof.
  induction 1 as [|y l S IH F]; [constructor|]. destruct l as [|z l]; [repeat constructor|]. change (dedup_f (y :: z :: l)) with (if facet_eqb y z then dedup_f (z :: l) else y :: dedup_f (z :: l)).
  destruct (facet_eqb y z) eqn:E; auto. apply feqb_false in E. constructor; auto. apply Forall_forall. intros w Hw. apply (dedup_in (z :: l)) in Hw.
  inversion F as [|? ? F1 F2]; subst. destruct F1 as [->|F1]; [congruence|]. destruct Hw as [<-|Hw]; auto. inversion S as [|? ? S1 S2]; subst. rewrite Forall_forall in S2. destruct (S2 w Hw) as [<-|L]; auto. eapply flt_trans; eauto.
Qed.
Lemma unique_ok l : lists_facets (fun x => In x l) (unique_f l).
Proof.
  split; [apply dedup_sorted, sort_sorted|]. intros x. unfold unique_f. rewrite dedup_in. split; apply Permutation_in; [apply sort_perm|symmetry; apply sort_perm].
Qed.
Lemma ssf_nodup l : StronglySorted facet_lt l -> NoDup l.
Proof. induction 1 as [|x l S IH F]; constructor; auto. intros H. rewrite Forall_forall in F. apply (flt_irr x). auto. Qed.
Lemma unique_nodup l : NoDup (unique_f l).
Proof. apply ssf_nodup, unique_ok. Qed.
(** Sorted lists holding each facet at most twice: those held twice. *)
Fixpoint occ (x : facet) (l : list facet) : nat := match l with [] => 0 | y :: l' => (if facet_eqb x y then 1 else 0) + occ x l' end.
Lemma occ_perm x l l' : Permutation l l' -> occ x l = occ x l'.
Proof. induction 1; cbn; lia. Qed.
Lemma occ_app x l l' : occ x (l ++ l') = occ x l + occ x l'.
Proof. induction l as [|y l IH]; cbn; auto. rewrite IH. lia. Qed.
Lemma occ_in x l : 0 < occ x l <-> In x l.
Proof.
  induction l as [|y l IH]; cbn; [split; [lia|tauto]|]. destruct (facet_eqb x y) eqn:E.
  - apply feqb_iff in E. subst. split; intros; [auto|lia].
  - apply feqb_false in E. cbn. rewrite IH. split; [auto|]. intros [H|H]; [congruence|auto].
Qed.
Lemma occ_nodup x l : NoDup l -> occ x l <= 1.
Proof. induction 1 as [|y l N H IH]; cbn; auto. destruct (facet_eqb x y) eqn:E; auto. apply feqb_iff in E. subst y. destruct (occ x l) eqn:O; [lia|]. exfalso. apply N. apply occ_in. lia. Qed.
Lemma le_lt_absurd a b : facet_le a b -> facet_lt b a -> False.
Proof. intros [->|H] K; [eapply flt_irr; eauto|]. apply (flt_irr a). eapply flt_trans; eauto. Qed.
Lemma repeated_in l : StronglySorted facet_le l -> forall x, In x (repeated_f l) <-> 2 <= occ x l.
Proof.
  induction 1 as [|y l S IH F]; intros x; [cbn; split; [tauto|lia]|]. destruct l as [|z l]; [cbn; destruct (facet_eqb x y); split; try tauto; lia|].
  change (repeated_f (y :: z :: l)) with (if facet_eqb y z then y :: repeated_f (z :: l) else repeated_f (z :: l)).
  change (occ x (y :: z :: l)) with ((if facet_eqb x y then 1 else 0) + occ x (z :: l)). destruct (facet_eqb y z) eqn:E.
  - apply feqb_iff in E. subst z. cbn [In]. rewrite IH. destruct (facet_eqb x y) eqn:Ex.
    + apply feqb_iff in Ex. subst x. split; auto. intros _. cbn [occ]. replace (facet_eqb y y) with true by (symmetry; apply feqb_iff; auto). lia.
    + apply feqb_false in Ex. cbn [plus]. split; [intros [H|H]; [congruence|auto]|auto].
  - apply feqb_false in E. rewrite IH. destruct (facet_eqb x y) eqn:Ex; [|cbn [plus]; tauto]. apply feqb_iff in Ex. subst x.
    assert (O : occ y (z :: l) = 0). { destruct (occ y (z :: l)) eqn:O; auto. exfalso. assert (H : In y (z :: l)) by (apply occ_in; lia). destruct H as [H|H]; [congruence|].
      inversion F as [|? ? F1 F2]; subst. destruct F1 as [->|F1]; [congruence|]. inversion S as [|? ? S1 S2]; subst. rewrite Forall_forall in S2. eapply le_lt_absurd; [apply (S2 y H)|auto]. }
    rewrite O. lia.
Qed.
Lemma repeated_sorted l : StronglySorted facet_le l -> (forall x, occ x l <= 2) -> StronglySorted facet_lt (repeated_f l).
Proof.
  induction 1 as [|y l S IH F]; intros H; [constructor|]. destruct l as [|z l]; [constructor|].
  change (repeated_f (y :: z :: l)) with (if facet_eqb y z then y :: repeated_f (z :: l) else repeated_f (z :: l)).
  assert (H' : forall x, occ x (z :: l) <= 2) by (intros x; specialize (H x); change (occ x (y :: z :: l)) with ((if facet_eqb x y then 1 else 0) + occ x (z :: l)) in H; lia).
  destruct (facet_eqb y z) eqn:E; auto. apply feqb_iff in E. subst z. constructor; auto. apply Forall_forall. intros w Hw. apply repeated_in in Hw; auto.
  assert (Iw : In w (y :: l)) by (apply occ_in; lia). rewrite Forall_forall in F. destruct (F w Iw) as [<-|L]; auto.
  exfalso. specialize (H y). change (occ y (y :: y :: l)) with ((if facet_eqb y y then 1 else 0) + occ y (y :: l)) in H. replace (facet_eqb y y) with true in H by (symmetry; apply feqb_iff; auto). lia.
Qed.
Lemma intersect_nodup a b : NoDup a -> NoDup b -> lists_facets (fun x => In x a /\ In x b) (repeated_f (sort_f (a ++ b))).
Proof.
  intros A B. assert (O : forall x, occ x (sort_f (a ++ b)) = occ x a + occ x b) by (intros; rewrite (occ_perm x _ _ (sort_perm _)); apply occ_app).
  split.
  - apply repeated_sorted; [apply sort_sorted|]. intros x. rewrite O. pose proof (occ_nodup x a A). pose proof (occ_nodup x b B). lia.
  - intros x. rewrite repeated_in by apply sort_sorted. rewrite O. rewrite <- !occ_in. pose proof (occ_nodup x a A). pose proof (occ_nodup x b B). lia.
Qed.
Lemma ssf_filter p l : StronglySorted facet_lt l -> StronglySorted facet_lt (filter p l).
Proof. induction 1 as [|x l S IH F]; cbn; [constructor|]. destruct (p x); auto. constructor; auto. apply Forall_forall. intros y Hy. apply filter_In in Hy. rewrite Forall_forall in F. apply F. tauto. Qed.
(** Dictionaries. *)
Lemma dict_ok x l : forall k, match dict_get x k l with
  | Some i => exists j, i = k + j /\ nth_error l j = Some x /\ forall j', j < j' -> nth_error l j' <> Some x
  | None => ~ In x l end.
Proof.
  induction l as [|y l IH]; intros k; cbn [dict_get]; [cbn; tauto|]. specialize (IH (S k)). destruct (dict_get x (S k) l) as [i|].
  - destruct IH as (j & -> & E & M). exists (S j). split; [lia|]. split; auto. intros [|j'] L; [lia|]. cbn. apply M. lia.
  - destruct (facet_eqb x y) eqn:E.
    + apply feqb_iff in E. subst y. exists 0. split; [lia|]. split; auto. intros [|j'] L; [lia|]. cbn. intros H. apply IH. eapply nth_error_In; eauto.
    + apply feqb_false in E. cbn. intros [H|H]; [congruence|auto].
Qed.
Lemma pmap_ret {A B} (f : A -> outcome B) l : (forall x, In x l -> exists y, f x = Ret y) -> exists ys, pmap f l = Ret ys /\ Forall2 (fun x y => f x = Ret y) l ys.
Proof.
  induction l as [|x l IH]; intros H; [exists []; split; [reflexivity|constructor]|]. destruct (H x ltac:(cbn; auto)) as (y & E). destruct IH as (ys & Es & F); [intros; apply H; cbn; auto|].
  exists (y :: ys). cbn. rewrite E. cbn. rewrite Es. cbn. split; auto.
Qed.
Lemma pmap_abort {A B} (f : A -> outcome B) l x : In x l -> (forall z, In z l -> f z = Abort \/ exists y, f z = Ret y) -> f x = Abort -> pmap f l = Abort.
Proof.
  induction l as [|z l IH]; intros I H E; [destruct I|]. cbn. destruct (H z ltac:(cbn; auto)) as [Hz|(y & Hz)]; rewrite Hz; auto. cbn. destruct I as [->|I]; [congruence|]. rewrite IH; auto. intros; apply H; cbn; auto.
Qed.
(** Facets of a mesh. *)
Lemma where_from_spec x l : forall k, In x l -> exists i, where_from k x l = Ret (k + i) /\ nth_error l i = Some x /\ forall j, j < i -> nth_error l j <> Some x.
Proof.
  induction l as [|y l IH]; intros k I; [destruct I|]. cbn. destruct (y =? x) eqn:E.
  - apply Nat.eqb_eq in E. subst. exists 0. rewrite Nat.add_0_r. split; auto. split; auto. intros; lia.
  - apply Nat.eqb_neq in E. destruct I as [I|I]; [congruence|]. destruct (IH (S k) I) as (i & W & N & M). exists (S i). rewrite W. split; [f_equal; lia|]. split; auto. intros [|j] L; cbn; [congruence|]. apply M. lia.
Qed.
Section Topology.
Variable T : topology.
Hypothesis W : mesh_topology T.
Lemma is_facet_fun f c k k' : is_facet T f c k -> is_facet T f c k' -> k = k'.
Proof.
  intros (fs & E & N) (fs' & E' & N'). rewrite E in E'. injection E' as <-. destruct W as (_ & D). specialize (D c fs E). rewrite NoDup_nth_error in D. apply D; [apply nth_error_Some; congruence|congruence].
Qed.
Lemma where_facet f c k : is_facet T f c k -> (fs <- pat (cell_facets T) c ;; k <- where0 f fs ;; Ret (c, k)) = Ret (c, k).
Proof.
  intros H. destruct H as (fs & E & N). unfold pat. rewrite E. cbn [bind]. unfold where0. destruct (where_from_spec f fs 0) as (i & Wi & Ni & _); [eapply nth_error_In; eauto|]. rewrite Wi. cbn [bind plus].
  do 2 f_equal. apply (is_facet_fun f c); exists fs; auto.
Qed.
Lemma cells_facets f cs : (forall c, In c cs -> exists k, is_facet T f c k) ->
  exists l, pmap (fun c => fs <- pat (cell_facets T) c ;; k <- where0 f fs ;; Ret (c, k)) cs = Ret l /\ map fst l = cs /\ forall p, In p l <-> In (fst p) cs /\ is_facet T f (fst p) (snd p).
Proof.
  induction cs as [|c cs IH]; intros H; [exists []; split; [reflexivity|]; split; [reflexivity|]; intros p; cbn [In]; tauto|]. destruct (H c ltac:(cbn; auto)) as (k & Hk). destruct IH as (l & E & M & I); [intros; apply H; cbn; auto|].
  exists ((c, k) :: l). cbn [pmap]. rewrite (where_facet f c k Hk). cbn [bind]. rewrite E. cbn [bind]. split; auto. split; [cbn; congruence|]. intros (c', k'). cbn [In fst snd]. rewrite I. cbn [fst snd]. split.
  - intros [Eq|(Hc & Hf)]; [injection Eq as <- <-; auto|auto].
  - intros ([->|Hc] & Hf); [|auto]. left. f_equal. apply (is_facet_fun f c'); auto.
Qed.
Lemma from_ids_ok ids (single : bool) : (forall f, In f ids -> f < length (facet_cells T)) ->
  exists ls, create_facets_from_ids T ids single = Ret (concat ls)
  /\ Forall2 (fun f l => (forall p, In p l -> is_facet T f (fst p) (snd p)) /\ NoDup l /\ 1 <= length l
       /\ (if single then length l = 1 else forall p, is_facet T f (fst p) (snd p) -> In p l)) ids ls.
Proof.
  intros H. unfold create_facets_from_ids.
  assert (E : exists ls, pmap (fun f => cs <- pat (facet_cells T) f ;; pmap (fun c => fs <- pat (cell_facets T) c ;; k <- where0 f fs ;; Ret (c, k)) (if single then firstn 1 cs else cs)) ids = Ret ls
     /\ Forall2 (fun f l => (forall p, In p l -> is_facet T f (fst p) (snd p)) /\ NoDup l /\ 1 <= length l /\ length l <= (if single then 1 else 2)
          /\ (if single then length l = 1 else forall p, is_facet T f (fst p) (snd p) -> In p l)) ids ls).
  { induction ids as [|f ids IH]; [exists []; split; [reflexivity|constructor]|]. destruct IH as (ls & Es & F); [intros; apply H; cbn; auto|].
    destruct (nth_error (facet_cells T) f) as [cs|] eqn:Ef; [|exfalso; apply nth_error_None in Ef; specialize (H f ltac:(cbn; auto)); lia].
    destruct W as (W1 & _). destruct (W1 f cs Ef) as (Nd & Len & Ic). set (cs' := if single then firstn 1 cs else cs).
    assert (Sub : forall c, In c cs' -> In c cs). { unfold cs'. destruct single; auto. intros c Hc. rewrite <- (firstn_skipn 1 cs). apply in_or_app. auto. }
    destruct (cells_facets f cs') as (l & El & Ml & Il). { intros c Hc. apply Ic. auto. }
    exists (l :: ls). cbn [pmap]. unfold pat at 1. rewrite Ef. cbn [bind]. fold cs'. rewrite El. cbn [bind]. rewrite Es. cbn [bind]. split; auto. constructor; auto.
    assert (Ll : length l = length cs') by (rewrite <- Ml, map_length; auto). split; [intros p Hp; apply Il; auto|].
    assert (Nd' : NoDup cs') by (unfold cs'; destruct single; auto; destruct cs as [|c cs]; cbn; repeat constructor; auto).
    split. { apply (NoDup_map_inv fst). rewrite Ml. auto. }
    rewrite Ll. unfold cs'. destruct single.
    - rewrite firstn_length. repeat split; lia.
    - repeat split; try lia. intros p Hp. apply Il. split; auto. apply Ic. eauto. }
  destruct E as (ls & Es & F). exists ls. rewrite Es. cbn [bind].
  assert (Len : length (concat ls) <= (if single then length ids else length ids * 2)).
  { clear - F. induction F as [|f l ids ls P F IH]; [destruct single; cbn; lia|]. cbn [concat length]. rewrite app_length. destruct P as (_ & _ & _ & L & _). destruct single; lia. }
  apply Nat.leb_le in Len. rewrite Len. cbn [assert_]. split; auto. clear - F. induction F as [|f l ids ls P F IH]; constructor; auto. destruct P as (P1 & P2 & P3 & _ & P4). repeat (split; [assumption|]). assumption.
Qed.
End Topology.
