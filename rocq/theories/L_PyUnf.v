From Coq Require Import List Arith Bool Lia ZArith Permutation Sorting.Sorted.
From Verif Require Import M_Domain S_Domain L_Domain L_DomainQ L_DomainT P_Domain.
From Verif Require Import M_PyBase M_PyNodes M_PyFacets M_PyMesh M_PyUnf S_PyTp S_PyTpMesh S_PyMesh S_PyFacets S_PyUnf L_PyNodes L_PyFacets L_PyMesh P_PyMesh P_PyFacets P_PyTpMesh P_PyTpMesh2.
Import ListNotations.
Local Open Scope Z_scope.

(** The status of a facet of a built domain: all the queries agree with it. *)
Lemma facet_kind g sign ccell cfacet D s : built g sign ccell cfacet D s -> forall id f, cell_id g id -> facet_id g f -> exists st,
  is_full_facet D id f = Ret (st_is_full st) /\ is_empty_facet D id f = Ret (st_is_empty st) /\ is_cut_facet D id f = Ret (st_is_cut st)
  /\ is_full_unfitted_facet D id f = Ret (st_is_full_unf st) /\ has_unfitted_boundary D id f = Ret (st_has_unf st).
Proof.
  intros HB id f Hid Hf. destruct (stat_cell _ _ _ _ _ _ HB id Hid) as (st & h & Hs & Hcr & _).
  unfold is_full_facet, is_empty_facet, is_cut_facet, is_full_unfitted_facet, has_unfitted_boundary.
  rewrite (facet_query_ok _ _ _ _ _ _ HB st_is_full _ (only Cfull) id f st Hid Hf Hs) by (apply (is_cell_stat _ _ _ _ _ _ HB); auto).
  rewrite (facet_query_ok _ _ _ _ _ _ HB st_is_empty _ (only Cempty) id f st Hid Hf Hs) by (apply (is_cell_stat _ _ _ _ _ _ HB); auto).
  rewrite !(fun p => facet_query_ok _ _ _ _ _ _ HB p (Ret false) (fun _ => false) id f st Hid Hf Hs eq_refl).
  unfold fb_of. destruct (fm_find (d_fm D) id) as [v|] eqn:Ev; [eexists; repeat split; reflexivity|].
  apply cr_entry in Hcr as (H1 & H2 & _). destruct st.
  - destruct (H2 eq_refl). congruence.
  - exists Ffull. auto.
  - exists Fempty. auto.
  - congruence.
Qed.
Lemma built_grid g sign ccell cfacet D s : built g sign ccell cfacet D s -> d_grid D = g /\ 1 <= num_cells g.
Proof.
  intros HB. pose proof (built_facts _ _ _ _ _ _ HB) as HF. split; [apply (df_grid _ _ _ _ _ _ HF)|]. pose proof (df_signs _ _ _ _ _ _ HF). lia.
Qed.

Lemma original_range m n i c : cells_of_process m n -> original_of m i c -> 0 <= c < Z.of_nat n.
Proof.
  intros (ND & HA) (Bi & O). assert (Ii : In (nth (Z.to_nat i) (original_cell_index m) 0) (original_cell_index m)) by (apply nth_In; lia). destruct (active_cells m) as [a|].
  - destruct HA as (_ & Ra & Ia). apply Ra. rewrite <- O. apply nth_In. apply Ia in Ii. lia.
  - rewrite <- O. auto.
Qed.
Lemma original_ex m i : 0 <= i < Z.of_nat (length (original_cell_index m)) -> exists c, original_of m i c.
Proof. intros B. unfold original_of. destruct (active_cells m); eexists; split; auto. Qed.
Lemma original_fun m i c c' : original_of m i c -> original_of m i c' -> c = c'.
Proof. intros (_ & A) (_ & B). destruct (active_cells m); congruence. Qed.
Lemma cells_list m : exists cs, length cs = length (original_cell_index m) /\ forall k, (k < length cs)%nat -> original_of m (Z.of_nat k) (nth k cs 0).
Proof.
  assert (H : forall n, (n <= length (original_cell_index m))%nat -> exists cs, length cs = n /\ forall k, (k < n)%nat -> original_of m (Z.of_nat k) (nth k cs 0)).
  { induction n as [|n IH]; intros B; [exists []; split; auto; intros; lia|]. destruct IH as (cs & L & H); [lia|]. destruct (original_ex m (Z.of_nat n) ltac:(lia)) as (c & O).
    exists (cs ++ [c]). rewrite app_length; cbn. split; [lia|]. intros k Hk. destruct (Nat.eq_dec k n) as [->|].
    - rewrite app_nth2, L, Nat.sub_diag by lia. auto.
    - rewrite app_nth1 by lia. apply H. lia. }
  destruct (H _ (Nat.le_refl _)) as (cs & L & O). exists cs. split; auto. intros k Hk. apply O. lia.
Qed.
(** A process with as many cells as the grid has all of them. *)
Lemma all_cells m n : cells_of_process m n -> (length (original_cell_index m) <= n)%nat /\ ((n <= length (original_cell_index m))%nat -> forall c, 0 <= c < Z.of_nat n -> exists i, original_of m i c).
Proof.
  intros HC. destruct (cells_list m) as (cs & L & O). assert (ND : NoDup cs).
  { apply (NoDup_nth cs 0). intros i j Hi Hj E. pose proof (O i Hi) as Oi. pose proof (O j Hj) as Oj. rewrite E in Oi. pose proof (original_inj m n HC _ _ _ Oi Oj). lia. }
  assert (I : incl cs (map Z.of_nat (seq 0 n))).
  { intros c Hc. destruct (In_nth _ _ 0 Hc) as (k & Hk & <-). pose proof (original_range m n _ _ HC (O k Hk)). apply in_map_iff. exists (Z.to_nat (nth k cs 0)). split; [lia|]. apply in_seq. lia. }
  pose proof (NoDup_incl_length ND I) as LE. rewrite map_length, seq_length in LE. split; [lia|]. intros G c Hc.
  assert (J : incl (map Z.of_nat (seq 0 n)) cs) by (apply NoDup_length_incl; auto; rewrite map_length, seq_length; lia).
  assert (Ic : In c cs). { apply J. apply in_map_iff. exists (Z.to_nat c). split; [lia|]. apply in_seq. lia. }
  destruct (In_nth _ _ 0 Ic) as (k & Hk & <-). eauto.
Qed.
Lemma f2_in_l {A B} (R : A -> B -> Prop) l l' x : Forall2 R l l' -> In x l -> exists y, In y l' /\ R x y.
Proof. induction 1 as [|a b l l' H F IH]; intros []; [subst; exists b; cbn; auto|]. destruct (IH H0) as (y & ? & ?). exists y. cbn. auto. Qed.
Lemma f2_in_r {A B} (R : A -> B -> Prop) l l' y : Forall2 R l l' -> In y l' -> exists x, In x l /\ R x y.
Proof. induction 1 as [|a b l l' H F IH]; intros []; [subst; exists a; cbn; auto|]. destruct (IH H0) as (x & ? & ?). exists x. cbn. auto. Qed.
Lemma f2_nodup {A B} (R : A -> B -> Prop) l l' : Forall2 R l l' -> (forall x x' y, R x y -> R x' y -> x = x') -> NoDup l -> NoDup l'.
Proof.
  intros F U. induction F as [|a b l l' H F IH]; intros N; [constructor|]. inversion N; subst. constructor; auto. intros I. destruct (f2_in_r _ _ _ _ F I) as (x & Ix & Rx). assert (x = a) by eauto. subst. contradiction.
Qed.
Lemma ss_le_lt l : StronglySorted Z.le l -> NoDup l -> StronglySorted Z.lt l.
Proof. induction 1 as [|x l SS IH Hx]; intros N; inversion N; subst; constructor; auto. rewrite Forall_forall in *. intros y Hy. specialize (Hx y Hy). assert (x <> y) by (intros ->; contradiction). lia. Qed.

Section Cells.
  Variables (sort : list Z -> list Z) (argsort : list Z -> list nat) (g : grid) (D : domain) (m : mesh) (n_local : nat).
  Hypothesis Hs : sorting sort.
  Hypothesis Ha : sorts argsort.
  Hypothesis HD : domain_on g D m n_local.
  Lemma get_cells_py st : st <> Cunknown -> exists l, py_get_cells sort argsort m n_local D st = Ret l /\ StronglySorted Z.lt l
    /\ forall i, In i l <-> 0 <= i < Z.of_nat n_local /\ exists c, original_of m i c /\ cell_query D st c = Ret true.
  Proof.
    intros Hst. destruct HD as ((sign & ccell & cfacet & s & HB) & HC & Hn). destruct (built_grid _ _ _ _ _ _ HB) as (EG & N1).
    destruct (C13_cells_partition _ _ _ _ _ _ HB) as (F & E & C & EF & EE & EC & SF & SE & SC & _).
    assert (Q : exists all, get_cells D st = Ret all /\ StronglySorted Z.lt all /\ forall c, In c all <-> cell_id g c /\ cell_query D st c = Ret true).
    { destruct (cells_ok _ _ _ _ _ _ HB st) as (all & E1 & E2 & _ & E4). exists all. split; auto. split; auto. intros c.
      assert (V : In c all -> cell_id g c). { intros I. apply E4 in I. destruct I as (x & Hx & ->). eapply stat_valid; eauto. exists x. eauto. }
      split.
      - intros I. split; auto. destruct (C14_queries_agree _ _ _ _ _ _ HB c F E C (V I) EF EE EC) as (f & e & cc & Qf & Qe & Qc & If & Ie & Ic).
        unfold cell_query. destruct st; try congruence; [rewrite Qc|rewrite Qf|rewrite Qe]; f_equal; [apply Ic|apply If|apply Ie]; congruence.
      - intros (Hc & Hq). destruct (C14_queries_agree _ _ _ _ _ _ HB c F E C Hc EF EE EC) as (f & e & cc & Qf & Qe & Qc & If & Ie & Ic).
        unfold cell_query in Hq. destruct st; try congruence; [rewrite Qc in Hq|rewrite Qf in Hq|rewrite Qe in Hq]; injection Hq as ->.
        + assert (all = C) by congruence. subst. apply Ic. auto.
        + assert (all = F) by congruence. subst. apply If. auto.
        + assert (all = E) by congruence. subst. apply Ie. auto. }
    destruct Q as (all & E1 & SS & IA).
    assert (G : exists orig, (if Z.of_nat n_local =? num_cells (d_grid D) then get_cells D st else (t <- get_all_original_cell_ids m n_local ;; get_cells_target D st t)) = Ret orig
       /\ NoDup orig /\ forall c, In c orig <-> exists i, 0 <= i < Z.of_nat n_local /\ original_of m i c /\ cell_query D st c = Ret true).
    { rewrite EG. destruct (Z.eqb_spec (Z.of_nat n_local) (num_cells g)) as [En|En].
      - exists all. split; auto. split. { apply sorted_lt_nodup; auto. } intros c. rewrite IA. destruct (all_cells m _ HC) as (A1 & A2). split.
        + intros (Hc & Hq). unfold cell_id in Hc. destruct (A2 ltac:(lia) c ltac:(lia)) as (i & O). exists i. split; auto. destruct O as (B & _). lia.
        + intros (i & _ & O & Hq). split; auto. pose proof (original_range m _ _ _ HC O). unfold cell_id. lia.
      - assert (T : exists t, get_all_original_cell_ids m n_local = Ret t /\ Forall2 (original_of m) (map Z.of_nat (seq 0 n_local)) t).
        { unfold get_all_original_cell_ids. destruct (original_cell_index m) as [|x l] eqn:EI.
          - assert (n_local = 0%nat) as -> by (cbn in Hn; lia). exists []. split; [|constructor]. cbn [seq map]. unfold get_original_cell_ids. cbn [forallb assert_ take_zids pmap bind]. destruct (active_cells m); reflexivity.
          - destruct (C117_cells_partial argsort m _ Ha HC) as (P1 & _); [congruence|]. destruct (P1 (map Z.of_nat (seq 0 n_local))) as (t & T1 & T2 & _); [|eauto].
            intros i Hi. apply in_map_iff in Hi. destruct Hi as (k & <- & Ik). apply in_seq in Ik. rewrite EI. lia. }
        destruct T as (t & ET & FT). rewrite ET. cbn [bind].
        assert (CT : Forall (cell_id g) t). { apply Forall_forall. intros c Hc. destruct (f2_in_r _ _ _ _ FT Hc) as (i & _ & O). pose proof (original_range m _ _ _ HC O). unfold cell_id. lia. }
        destruct (C15_target_lists _ _ _ _ _ _ HB st t all CT E1) as (l & EL & _ & PL). exists l. split; auto. split.
        + apply (Permutation_NoDup (Permutation_sym PL)). apply NoDup_filter. eapply f2_nodup; [exact FT| |].
          * intros i j c Oi Oj. eapply original_inj; eauto.
          * apply FinFun.Injective_map_NoDup; [intros a b; apply Nat2Z.inj|apply seq_NoDup].
        + intros c. assert (X : In c l <-> In c t /\ In c all).
          { transitivity (In c (filter (fun id => if in_dec Z.eq_dec id all then true else false) t)).
            - split; intros I; [eapply Permutation_in; [exact PL|auto]|eapply Permutation_in; [apply Permutation_sym; exact PL|auto]].
            - rewrite filter_In. destruct (in_dec Z.eq_dec c all); intuition congruence. }
          rewrite X, IA. split.
          * intros (It & _ & Hq). destruct (f2_in_r _ _ _ _ FT It) as (i & Ii & O). exists i. apply in_map_iff in Ii. destruct Ii as (k & <- & Ik). apply in_seq in Ik. split; [lia|auto].
          * intros (i & Bi & O & Hq). split; [|split; auto].
            -- destruct (f2_in_l _ _ _ i FT) as (c' & Ic & O'). { apply in_map_iff. exists (Z.to_nat i). split; [lia|]. apply in_seq. lia. } rewrite (original_fun _ _ _ _ O O'). auto.
            -- pose proof (original_range m _ _ _ HC O). unfold cell_id. lia. }
    destruct G as (orig & EO & NO & IO). unfold py_get_cells. rewrite EO. cbn [bind].
    assert (R : exists ids, get_DOLFINx_local_cell_ids argsort m orig = Ret ids /\ Forall2 (fun c i => original_of m i c) orig ids).
    { destruct orig as [|c0 orig'].
      - exists []. split; [|constructor]. unfold get_DOLFINx_local_cell_ids.
        assert (FE : forall a, find_in_array argsort [] a = Ret []). { intros a. destruct (find_ok argsort a [] Ha (or_intror eq_refl)) as (rs & Er & Fr). inversion Fr; subst. auto. }
        destruct (active_cells m); [rewrite FE|]; cbn [bind]; apply FE.
      - assert (NE : original_cell_index m <> []). { destruct (proj1 (IO c0) (or_introl eq_refl)) as (i & _ & (B & _) & _). intros Z. rewrite Z in B. cbn in B. lia. }
        destruct (C117_cells_partial argsort m _ Ha HC NE) as (_ & P2 & _). destruct (P2 (c0 :: orig')) as (ids & E2 & F2). exists ids. split; auto.
        assert (X : forall c, In c (c0 :: orig') -> exists i, original_of m i c). { intros c Ic. apply IO in Ic. destruct Ic as (i & _ & O & _). eauto. }
        clear - F2 X. induction F2 as [|c i cs is H F IH]; constructor; [|apply IH; intros; apply X; cbn; auto]. destruct H as [H|(_ & H)]; auto. destruct (X c ltac:(cbn; auto)) as (k & O). destruct (H _ O). }
    destruct R as (ids & ER & FR). rewrite ER. cbn [bind]. destruct (Hs ids) as (Pm & Ss). exists (sort ids). split; auto. split.
    { apply ss_le_lt; auto. apply (Permutation_NoDup (Permutation_sym Pm)). eapply f2_nodup; [exact FR| |auto]. intros c c' i O O'; cbn beta in O, O'. exact (original_fun _ _ _ _ O O'). }
    intros i. transitivity (In i ids).
    { split; intros I; [eapply Permutation_in; [exact Pm|auto]|eapply Permutation_in; [apply Permutation_sym; exact Pm|auto]]. }
    split.
    - intros I. destruct (f2_in_r _ _ _ _ FR I) as (c & Ic & O). apply IO in Ic. destruct Ic as (j & Bj & O' & Hq). rewrite (original_inj m _ HC _ _ _ O O'). eauto.
    - intros (Bi & c & O & Hq). destruct (f2_in_l _ _ _ c FR) as (j & Ij & O'). { apply IO. eauto. } rewrite (original_inj m _ HC _ _ _ O O'). auto.
  Qed.
End Cells.
