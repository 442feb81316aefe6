(** C69 - C72: adjusted roots, reference roots, pruning. *)
From Coq Require Import Reals List Lia Lra Permutation Sorted Arith ZArith.
From Verif Require Import M_Roots S_Mesh S_Roots L_Real L_Roots.
Import ListNotations.
Local Close Scope Z_scope. Local Close Scope nat_scope. Local Open Scope R_scope.

(** C69.  [entries] are the roots added one by one, with their ids (-1 for an end of the interval); [sort] is any correct sorting function. *)
Theorem C69_adjust_roots : forall sort tol x0 x1 entries, sorts_by root_less sort -> 0 <= tol < x1 - x0 -> Forall (root_in x0 x1) entries ->
  exists ri ri' first mid last s, add_roots ri_empty entries = Ret ri /\ adjust_roots sort tol x0 x1 ri = Ret ri' /\
    ri_roots_ids ri' = first ++ mid ++ last /\ ri_roots ri' = map fst (ri_roots_ids ri') /\ ri_func_ids ri' = map snd (ri_roots_ids ri') /\
    StronglySorted Rle (ri_roots ri') /\ Forall (fun x => x0 <= x <= x1) (ri_roots ri') /\
    once_if_present (x0, (-1)%Z) entries first /\ once_if_present (x1, (-1)%Z) entries last /\
    Permutation s (levelset_entries entries) /\ StronglySorted Rle (map fst s) /\ Forall2 (moved_within tol) s mid.
Proof.
  intros sort tol x0 x1 entries HS Ht HE. destruct (adjust_eq sort tol x0 x1 entries HS Ht HE) as (s & first & last & Es & Hf & Hl & E). cbv zeta in E.
  set (mid := filter nonmark (newl tol x0 x1 None s)) in *. destruct (HS entries) as [HP HN]. rewrite <- Es in HP, HN.
  assert (Ha : asc None s) by (apply no_descent_asc; [exact HN|intros; exact I]).
  assert (Hb : Forall (fun e => x0 <= fst e <= x1) s) by (eapply Permutation_Forall; [symmetry; exact HP|]; eapply Forall_impl; [|exact HE]; intros e He; apply He).
  pose proof (newl_sorted0 tol x0 x1 Ht s Ha Hb) as Hso. apply Sorted_StronglySorted in Hso; [|intros u v w; apply Rle_trans].
  pose proof (newl_match tol x0 x1 Ht s None Ha Hb ltac:(discriminate)) as Hm. apply filter_match in Hm. fold mid in Hm.
  assert (Hmid : StronglySorted Rle (map fst mid)) by (apply filter_sorted; exact Hso).
  assert (Hin : Forall (fun e => x0 <= fst e <= x1) mid).
  { clear - Hm. induction Hm as [|o n a b (_ & H & _) Ht IH]; constructor; assumption. }
  assert (Hfx : forall e, In e first -> e = (x0, (-1)%Z)).
  { intros e He. destruct (in_dec rz_dec (x0, (-1)%Z) entries) as [D|D];
      [rewrite (proj1 Hf D) in He; destruct He as [<- | []]; reflexivity|rewrite (proj2 Hf D) in He; destruct He]. }
  assert (Hlx : forall e, In e last -> e = (x1, (-1)%Z)).
  { intros e He. destruct (in_dec rz_dec (x1, (-1)%Z) entries) as [D|D];
      [rewrite (proj1 Hl D) in He; destruct He as [<- | []]; reflexivity|rewrite (proj2 Hl D) in He; destruct He]. }
  assert (Hall : Forall (fun x => x0 <= x <= x1) (map fst (first ++ mid ++ last))).
  { rewrite Forall_forall. intros x Hx. apply in_map_iff in Hx as (e & <- & He). apply in_app_or in He as [He | He]; [rewrite (Hfx e He); cbn [fst]; lra|].
    apply in_app_or in He as [He | He]; [rewrite Forall_forall in Hin; apply Hin; exact He|rewrite (Hlx e He); cbn [fst]; lra]. }
  exists (mk_ri (map fst entries) (map snd entries) entries), (mk_ri (map fst (first ++ mid ++ last)) (map snd (first ++ mid ++ last)) (first ++ mid ++ last)), first, mid, last, (filter nonmark s).
  split. { rewrite add_roots_ok; [reflexivity|]. eapply Forall_impl; [|exact HE]. intros e He. apply He. }
  split; [exact E|]. split; [reflexivity|]. split; [reflexivity|]. split; [reflexivity|]. cbn [ri_roots ri_roots_ids] in *. split.
  { clear - Hmid Hin Hfx Hlx Ht. rewrite !map_app.
    assert (G : StronglySorted Rle (map fst mid ++ map fst last)).
    { assert (Hl1 : StronglySorted Rle (map fst last)).
      { assert (K : forall l, (forall x, In x l -> x = x1) -> StronglySorted Rle l).
        { induction l as [|a l IH]; intros H; constructor; [apply IH; intros; apply H; right; assumption|]. rewrite Forall_forall. intros x Hx. rewrite (H a), (H x); [lra|right; exact Hx|left; reflexivity]. }
        apply K. intros x Hx. apply in_map_iff in Hx as (e & <- & He). rewrite (Hlx e He). reflexivity. }
      induction mid as [|m mid IH]; cbn [map app] in *; [exact Hl1|]. inversion Hmid; subst. inversion Hin; subst. constructor; [apply IH; assumption|].
      apply Forall_app. split; [assumption|]. rewrite Forall_forall. intros x Hx. apply in_map_iff in Hx as (e & <- & He). rewrite (Hlx e He). cbn [fst]. lra. }
    assert (Ga : Forall (fun x => x0 <= x) (map fst mid ++ map fst last)).
    { apply Forall_app. split; rewrite Forall_forall; intros x Hx; apply in_map_iff in Hx as (e & <- & He); [rewrite Forall_forall in Hin; apply (Hin e He)|rewrite (Hlx e He); cbn [fst]; lra]. }
    assert (Hfx' : forall x, In x (map fst first) -> x = x0) by (intros x Hx; apply in_map_iff in Hx as (e & <- & He); rewrite (Hfx e He); reflexivity).
    revert Hfx'. generalize (map fst first). induction l as [|a l IH]; intros Hfx'; cbn [app]; [exact G|]. constructor; [apply IH; intros; apply Hfx'; right; assumption|].
    rewrite (Hfx' a) by (left; reflexivity). apply Forall_app. split; [|exact Ga]. rewrite Forall_forall. intros x Hx. rewrite (Hfx' x) by (right; exact Hx). lra. }
  split; [exact Hall|]. split; [exact Hf|]. split; [exact Hl|]. split.
  { clear - HP. unfold levelset_entries. change (fun e : R * Z => negb (snd e =? -1)%Z) with nonmark. induction HP; cbn [filter]; [constructor| | |eapply perm_trans; eassumption].
    - destruct (nonmark x); [apply perm_skip; assumption|assumption].
    - destruct (nonmark x), (nonmark y); try reflexivity. apply perm_swap. }
  split. { apply filter_sorted. destruct s as [|[r k] s]; [constructor|]. pose proof (asc_sorted tol x0 x1 Ht s r r (proj2 Ha) ltac:(lra)) as HH. inversion HH; subst.
    apply Sorted_StronglySorted; [intros u v w; apply Rle_trans|assumption]. }
  clear - Hm. induction Hm as [|o n a b (H1 & _ & H2) Ht IH]; constructor; [split; assumption|exact IH].
Qed.

(** C70 is false: three roots r, r + 0.8 tol, r + 1.6 tol become r, r, r + 0.8 tol. *)
Theorem C70_near_roots_refuted : exists tol x0 x1 entries, 0 < tol < x1 - x0 /\ Forall (root_in x0 x1) entries /\
  forall sort, sorts_by root_less sort -> exists ri ri' a b, add_roots ri_empty entries = Ret ri /\ adjust_roots sort tol x0 x1 ri = Ret ri' /\
    In a (ri_roots ri') /\ In b (ri_roots ri') /\ a <> b /\ Rabs (a - b) <= tol.
Proof.
  exists 1, 0, 10, [(5, 0%Z); (5 + 8 / 10, 0%Z); (5 + 16 / 10, 0%Z)]. split; [lra|].
  set (entries := [(5, 0%Z); (5 + 8 / 10, 0%Z); (5 + 16 / 10, 0%Z)]).
  assert (HE : Forall (root_in 0 10) entries) by (unfold entries, root_in; repeat constructor; cbn [fst snd]; try lra; try lia; intros; discriminate).
  split; [exact HE|]. intros sort HS. destruct (adjust_eq sort 1 0 10 entries HS ltac:(lra) HE) as (s & first & last & Es & Hf & Hl & E). cbv zeta in E.
  assert (Hs : s = entries).
  { subst s. destruct (HS entries) as [HP HN]. apply Permutation_sym in HP. revert HP HN. generalize (sort entries). intros s HP HN. unfold entries in HP.
    assert (Hlen : length s = 3%nat) by (apply Permutation_length in HP; symmetry; exact HP).
    destruct s as [|[a i] [|[b j] [|[c k] [|? ?]]]]; try discriminate.
    assert (Hall : forall e, In e [(a, i); (b, j); (c, k)] -> In e entries) by (intros e; apply Permutation_in; symmetry; exact HP).
    assert (Hall2 : forall e, In e entries -> In e [(a, i); (b, j); (c, k)]) by (intros e; apply Permutation_in; exact HP).
    cbn [no_descent] in HN. unfold root_less, Rltb in HN. cbn [fst] in HN. destruct HN as (N1 & N2 & _). destruct (Rlt_dec b a) as [|N1']; [discriminate|]. destruct (Rlt_dec c b) as [|N2']; [discriminate|].
    assert (Ha := Hall (a, i) (or_introl eq_refl)). assert (Hb := Hall (b, j) (or_intror (or_introl eq_refl))). assert (Hc := Hall (c, k) (or_intror (or_intror (or_introl eq_refl)))).
    assert (M1 := Hall2 (5, 0%Z) (or_introl eq_refl)). assert (M2 := Hall2 (5 + 8 / 10, 0%Z) (or_intror (or_introl eq_refl))). assert (M3 := Hall2 (5 + 16 / 10, 0%Z) (or_intror (or_intror (or_introl eq_refl)))).
    unfold entries in *. cbn [In] in *.
    repeat match goal with H : (_, _) = (_, _) \/ _ |- _ => destruct H as [H | H] | H : (_, _) = (_, _) |- _ => injection H; clear H; intros; subst | H : False |- _ => destruct H end; try reflexivity; exfalso; lra. }
  rewrite Hs in E. exists (mk_ri (map fst entries) (map snd entries) entries).
  assert (Ef : first = []) by (apply Hf; unfold entries; cbn [In]; intros [H | [H | [H | []]]]; discriminate).
  assert (El : last = []) by (apply Hl; unfold entries; cbn [In]; intros [H | [H | [H | []]]]; discriminate).
  rewrite Ef, El, app_nil_r in E. cbn [app] in E. eexists. exists 5, (5 + 8 / 10). split; [reflexivity|]. split; [exact E|]. cbn [ri_roots].
  unfold entries. cbn [newl filter nonmark snd Z.eqb negb map fst In]. unfold nv.
  assert (T : forall a b, Rabs (a - b) <= 1 -> tol_equal 1 a b = true) by (intros; apply tol_equal_iff; assumption).
  assert (F : forall a b, 1 < Rabs (a - b) -> tol_equal 1 a b = false) by (intros; apply tol_equal_niff; assumption).
  rewrite (F 5 0), (F 5 10), (F (5 + 8 / 10) 0), (F (5 + 8 / 10) 10), (F (5 + 16 / 10) 0), (F (5 + 16 / 10) 10), (T (5 + 8 / 10) 5), (T (5 + 16 / 10) (5 + 8 / 10)) by (unfold Rabs; destruct (Rcase_abs _); lra).
  split; [left; reflexivity|]. split; [right; right; left; reflexivity|]. split; [lra|]. unfold Rabs; destruct (Rcase_abs _); lra.
Qed.

(** C70, what holds: without chains of near roots (the ends included) the adjusted roots are equal or further apart than the tolerance.  Missing: lists with such chains, where it is false. *)
Theorem C70_near_roots_partial : forall sort tol x0 x1 entries, sorts_by root_less sort -> 0 <= tol < x1 - x0 -> Forall (root_in x0 x1) entries ->
  no_chain tol (x0 :: map fst (sort entries) ++ [x1]) ->
  exists ri ri', add_roots ri_empty entries = Ret ri /\ adjust_roots sort tol x0 x1 ri = Ret ri' /\
    forall a b, In a (ri_roots ri') -> In b (ri_roots ri') -> a = b \/ tol < Rabs (a - b).
Proof.
  intros sort tol x0 x1 entries HS Ht HE HC. destruct (adjust_eq sort tol x0 x1 entries HS Ht HE) as (s & first & last & Es & Hf & Hl & E). cbv zeta in E.
  rewrite <- Es in HC. destruct (HS entries) as [HP HN]. rewrite <- Es in HP, HN.
  assert (Ha : asc None s) by (apply no_descent_asc; [exact HN|intros; exact I]).
  assert (Hb : Forall (fun e => x0 <= fst e <= x1) s) by (eapply Permutation_Forall; [symmetry; exact HP|]; eapply Forall_impl; [|exact HE]; intros e He; apply He).
  eexists. eexists. split; [|split; [exact E|]].
  { rewrite add_roots_ok; [reflexivity|]. eapply Forall_impl; [|exact HE]. intros e He. apply He. }
  cbn [ri_roots].
  assert (Hsub : forall x, In x (map fst (first ++ filter nonmark (newl tol x0 x1 None s) ++ last)) -> In x (map fst (newl tol x0 x1 None s))).
  { intros x Hx. apply in_map_iff in Hx as (e & <- & He). apply in_app_or in He as [He | He]; [|apply in_app_or in He as [He | He]].
    - destruct (in_dec rz_dec (x0, (-1)%Z) entries) as [D|D];
        [rewrite (proj1 Hf D) in He; destruct He as [<- | []]|rewrite (proj2 Hf D) in He; destruct He].
      assert (D' : In (x0, (-1)%Z) s) by (apply (Permutation_in _ (Permutation_sym HP)); exact D). apply (newl_in tol x0 x1 s None) in D' as [q Hq]. rewrite (nv_x0 tol x0 x1 Ht q) in Hq. apply (in_map fst) in Hq. exact Hq.
    - apply filter_In in He. apply in_map, He.
    - destruct (in_dec rz_dec (x1, (-1)%Z) entries) as [D|D];
        [rewrite (proj1 Hl D) in He; destruct He as [<- | []]|rewrite (proj2 Hl D) in He; destruct He].
      assert (D' : In (x1, (-1)%Z) s) by (apply (Permutation_in _ (Permutation_sym HP)); exact D). apply (newl_in tol x0 x1 s None) in D' as [q Hq]. rewrite (nv_x1 tol x0 x1 Ht q) in Hq. apply (in_map fst) in Hq. exact Hq. }
  intros a b Hina Hinb. apply Hsub in Hina, Hinb. revert a b Hina Hinb. apply (gap_pairs tol x0 x1 Ht).
  - apply newl_sorted0; assumption.
  - destruct s as [|[r k] s]; [exact I|]. cbn [newl map fst] in *. inversion Hb; subst.
    assert (HSo : Sorted Rle (x0 :: r :: map fst s ++ [x1])).
    { apply asc_sorted_end; [apply Ha|cbn [fst] in *; lra|cbn [fst] in *; lra|]. eapply Forall_impl; [|exact H2]. cbn. intros; lra. }
    apply (newl_gap tol x0 x1 Ht s [] None r [x1]); [exact HC|exact HSo| |left; split; reflexivity]. eapply Forall_impl; [|exact H2]. cbn. intros; lra.
Qed.
(** C71 is false: the function reads the root at position psi_id instead of the matching position.  With roots 1 and 2 of restriction 0 it returns 1, 1. *)
Theorem C71_reference_roots_refuted : exists ri psi_id roots, ri_roots ri = map fst (ri_roots_ids ri) /\ ri_func_ids ri = map snd (ri_roots_ids ri) /\
  get_ref_intervals_roots ri psi_id = Ret roots /\ roots <> map fst (filter (fun e => (snd e =? psi_id)%Z) (ri_roots_ids ri)).
Proof.
  exists (mk_ri [1; 2] [0%Z; 0%Z] [(1, 0%Z); (2, 0%Z)]), 0%Z, [1; 1]. split; [reflexivity|]. split; [reflexivity|]. split; [reflexivity|]. cbn. intros H. injection H as H. lra.
Qed.
(** C71, what holds: the number of roots is right, and all of them are the root stored at position psi_id.  Missing: the values, which are wrong as soon as the roots of the restriction differ from it. *)
Theorem C71_reference_roots_partial : forall ri psi_id, ri_roots ri = map fst (ri_roots_ids ri) -> ri_func_ids ri = map snd (ri_roots_ids ri) ->
  let wanted := map fst (filter (fun e => (snd e =? psi_id)%Z) (ri_roots_ids ri)) in
  (wanted = [] -> get_ref_intervals_roots ri psi_id = Ret []) /\
  (wanted <> [] -> forall x, (0 <= psi_id)%Z -> nth_error (ri_roots ri) (Z.to_nat psi_id) = Some x ->
     get_ref_intervals_roots ri psi_id = Ret (repeat x (length wanted)) /\ (get_ref_intervals_roots ri psi_id = Ret wanted <-> forall y, In y wanted -> y = x)) /\
  (wanted <> [] -> (psi_id < 0)%Z \/ (Z.of_nat (length (ri_roots ri)) <= psi_id)%Z -> get_ref_intervals_roots ri psi_id = Abort).
Proof.
  intros ri k H1 H2 wanted. unfold get_ref_intervals_roots. rewrite H1, H2, map_length. rewrite firstn_all2 by (rewrite map_length; lia).
  assert (EL : length (filter (fun j => (j =? k)%Z) (map snd (ri_roots_ids ri))) = length wanted).
  { unfold wanted. rewrite map_length. clear. induction (ri_roots_ids ri) as [|e l IH]; [reflexivity|]. cbn [map filter]. destruct (snd e =? k)%Z; cbn [length]; rewrite IH; reflexivity. }
  assert (EN : forall l : list Z, l <> [] -> mapM (fun _ => @Abort R) l = Abort) by (intros [|a l] H; [congruence|reflexivity]).
  assert (EW : wanted <> [] -> filter (fun j => (j =? k)%Z) (map snd (ri_roots_ids ri)) <> []).
  { intros Hw HF. rewrite HF in EL. destruct wanted; [congruence|discriminate]. }
  split; [|split].
  - intros Hw. rewrite Hw in EL. destruct (filter _ (map snd _)); [reflexivity|discriminate].
  - intros Hw x H0 Hx. rewrite Hx. replace (0 <=? k)%Z with true by (symmetry; apply Z.leb_le; exact H0). rewrite mapM_const, EL. split; [reflexivity|].
    assert (G : forall w : list R, @Ret (list R) (repeat x (length w)) = Ret w <-> forall y, In y w -> y = x).
    { intros w. split.
      - intros E y Hy. injection E as E. rewrite <- E in Hy. apply repeat_spec in Hy. exact Hy.
      - intros E. f_equal. induction w as [|a w IH]; [reflexivity|]. cbn [length repeat]. rewrite IH by (intros; apply E; right; assumption). rewrite (E a) by (left; reflexivity). reflexivity. }
    apply G.
  - intros Hw [Hk | Hk].
    + replace (0 <=? k)%Z with false by (symmetry; apply Z.leb_gt; exact Hk). apply EN, EW, Hw.
    + destruct (0 <=? k)%Z; [|apply EN, EW, Hw]. rewrite (proj2 (nth_error_None (map fst (ri_roots_ids ri)) (Z.to_nat k))) by (rewrite map_length in *; lia). apply EN, EW, Hw.
Qed.

(** C72.  [uniform p] and [alpha p] describe the interval evaluation of the function on the restriction p, [sign p] the required sign. *)
Theorem C72_prune : forall (A : Type) (uniform : A -> bool) (alpha : A -> R) (sign : A -> Z) psi count, (count <= length psi)%nat ->
  exists ok psi' count', prune uniform alpha sign psi count = Ret (ok, psi', count') /\ Permutation psi' psi /\
    (ok = false <-> exists p, In p (firstn count psi) /\ uniform p = true /\ ~ ((0 <= alpha p /\ (0 <= sign p)%Z) \/ (alpha p <= 0 /\ (sign p <= 0)%Z))) /\
    (ok = true -> Permutation (firstn count' psi') (filter (fun p => negb (uniform p)) (firstn count psi)) /\ (count' <= count)%nat).
Proof.
  intros A uniform alpha sign psi count H. destruct (prune_ok uniform alpha sign psi count H) as (b & psi' & c' & E & HP & Hb & Hc). exists b, psi', c'. split; [exact E|]. split; [exact HP|].
  assert (Hcons : forall p, consistent alpha sign p = true <-> ((0 <= alpha p /\ (0 <= sign p)%Z) \/ (alpha p <= 0 /\ (sign p <= 0)%Z))).
  { intros p. unfold consistent. rewrite Bool.orb_true_iff, !Bool.andb_true_iff, !Rleb_true, !Z.leb_le. reflexivity. }
  split.
  - split.
    + intros ->. assert (N : ~ forall p, In p (firstn count psi) -> uniform p = true -> consistent alpha sign p = true) by (intros N; apply Hb in N; discriminate).
      assert (G : forall l, (exists p, In p l /\ uniform p = true /\ consistent alpha sign p = false) \/ forall p, In p l -> uniform p = true -> consistent alpha sign p = true).
      { induction l as [|a l IH]; [right; intros p []|]. destruct IH as [(p & HI & Hr) | IH]; [left; exists p; split; [right; exact HI|exact Hr]|].
        destruct (uniform a) eqn:Eu; [destruct (consistent alpha sign a) eqn:Ec|]; [right|left; exists a; split; [left; reflexivity|split; assumption]|right].
        - intros p [<- | HI] Hu; [exact Ec|apply IH; assumption].
        - intros p [<- | HI] Hu; [congruence|apply IH; assumption]. }
      destruct (G (firstn count psi)) as [(p & HI & Hu & Hcp) | G']; [|destruct (N G')]. exists p. split; [exact HI|]. split; [exact Hu|]. rewrite <- Hcons. congruence.
    + intros (p & HI & Hu & Hn). destruct b; [|reflexivity]. exfalso. apply Hn, Hcons. exact (proj1 Hb eq_refl p HI Hu).
  - intros Hb'. destruct (Hc Hb') as [Hp Hl]. split; [exact Hp|]. rewrite Hl. clear. assert (G : forall l : list A, (length (filter (fun p => negb (uniform p)) l) <= length l)%nat) by (induction l as [|a l IH]; [cbn; lia|]; cbn [filter]; destruct (negb (uniform a)); cbn [length]; lia). specialize (G (firstn count psi)). rewrite firstn_length in G. lia.
Qed.
Print Assumptions C69_adjust_roots.
Print Assumptions C70_near_roots_refuted.
Print Assumptions C70_near_roots_partial.
Print Assumptions C71_reference_roots_refuted.
Print Assumptions C71_reference_roots_partial.
Print Assumptions C72_prune.

(** The hypotheses are met. *)
Example ex_sort : sorts_by root_less rsort_ins.
Proof. exact rsort_ins_ok. Qed.
Example ex_entries : Forall (root_in 0 10) [(0, (-1)%Z); (10, (-1)%Z); (7, 0%Z); (3, 1%Z); (3, 0%Z); (10, 1%Z)] /\ 0 <= 1 < 10 - 0.
Proof. split; [|lra]. unfold root_in. repeat (apply Forall_cons; [cbn [fst snd]; split; [lra|split; [lia|intros H; first [discriminate|left; lra|right; lra]]]|]). apply Forall_nil. Qed.
Example ex_chain : no_chain 1 (0 :: map fst (rsort_ins [(0, (-1)%Z); (10, (-1)%Z); (4, 0%Z); (3, 1%Z)]) ++ [10]).
Proof.
  assert (E : rsort_ins [(0, (-1)%Z); (10, (-1)%Z); (4, 0%Z); (3, 1%Z)] = [(0, (-1)%Z); (3, 1%Z); (4, 0%Z); (10, (-1)%Z)]).
  { unfold rsort_ins. cbn [fold_right rins]. unfold root_less, Rltb. cbn [fst]. destruct (Rlt_dec 3 4); [|lra]. cbn [rins]. unfold root_less, Rltb. cbn [fst]. destruct (Rlt_dec 3 10); [|lra]. cbn [rins]. unfold root_less, Rltb. cbn [fst]. destruct (Rlt_dec 4 10); [|lra]. cbn [rins]. unfold root_less, Rltb. cbn [fst]. destruct (Rlt_dec 3 0); [lra|]. reflexivity. }
  rewrite E. cbn [map fst app]. intros pre a b c post Hl H1 H2.
  do 4 (destruct pre as [|? pre]; cbn [app] in Hl; [injection Hl; intros; subst; lra|injection Hl; clear Hl; intros Hl _]).
  do 3 (destruct pre as [|? pre]; cbn [app] in Hl; try discriminate; injection Hl; clear Hl; intros Hl _).
Qed.
Example ex_prune : prune (fun p : bool * R * Z => fst (fst p)) (fun p => snd (fst p)) snd [(true, 1, 1%Z); (false, 0, 0%Z); (true, -1, 0%Z); (false, 2, 1%Z)] 4 =
  Ret (true, [(false, 2, 1%Z); (false, 0, 0%Z); (true, -1, 0%Z); (true, 1, 1%Z)], 2%nat).
Proof.
  unfold prune. cbn [prune_loop Nat.ltb Nat.leb nth_error fst snd set_at Nat.sub]. unfold consistent, Rleb. cbn [fst snd Z.leb Z.compare andb].
  repeat (destruct (Rle_dec _ _); try (exfalso; lra); cbn [andb orb prune_loop Nat.ltb Nat.leb nth_error fst snd set_at Nat.sub]). all: reflexivity.
Qed.
