From Coq Require Import List Arith Bool Lia ZArith Permutation Sorting.Sorted.
From Verif Require Import M_Domain S_Domain L_Domain L_DomainQ L_DomainT P_Domain.
From Verif Require Import M_PyBase M_PyNodes M_PyFacets M_PyMesh M_PyUnf S_PyTp S_PyTpMesh S_PyMesh S_PyFacets S_PyUnf L_PyNodes L_PyFacets L_PyMesh P_PyMesh P_PyFacets P_PyTpMesh P_PyTpMesh2 L_PyUnf.
Import ListNotations.
Local Open Scope Z_scope.

(** The tables of faces. *)
Definition tab (dim : nat) : list nat := if (dim =? 2)%nat then [2; 0; 1; 3]%nat else [4; 2; 0; 1; 3; 5]%nat.
Definition tab' (dim : nat) : list nat := if (dim =? 2)%nat then [1; 2; 0; 3]%nat else [2; 3; 1; 4; 0; 5]%nat.
Lemma tables dim : (2 <= dim <= 3)%nat -> lexicg_to_DOLFINx_faces dim = Ret (tab dim) /\ DOLFINx_to_lexicg_faces dim = Ret (tab' dim) /\ length (tab dim) = (2 * dim)%nat /\ length (tab' dim) = (2 * dim)%nat
  /\ forall k, (k < 2 * dim)%nat -> (nth k (tab dim) 0 < 2 * dim)%nat /\ nth (nth k (tab dim) 0%nat) (tab' dim) 0%nat = k.
Proof.
  intros H. assert (dim = 2 \/ dim = 3)%nat as [-> | ->] by lia; (split; [reflexivity|split; [reflexivity|split; [reflexivity|split; [reflexivity|]]]]); intros k Hk.
  - do 4 (destruct k as [|k]; [cbn; lia|]). lia.
  - do 6 (destruct k as [|k]; [cbn; lia|]). lia.
Qed.
Definition lfb (dim f k : nat) : bool := forallb (fun v => Bool.eqb (side v (f / 2)) (Nat.odd f)) (nth k (basix_facets dim) []).
Lemma lfb_iff dim f k : lfb dim f k = true <-> forall v, In v (nth k (basix_facets dim) []) -> side v (f / 2) = Nat.odd f.
Proof. unfold lfb. rewrite forallb_forall. split; intros H v Hv; specialize (H v Hv); [apply eqb_prop; auto|rewrite H; apply eqb_reflx]. Qed.
Lemma local_facet_tab dim f k : (2 <= dim <= 3)%nat -> (f < 2 * dim)%nat -> (k < 2 * dim)%nat -> (local_facet dim f k <-> f = nth k (tab dim) 0%nat).
Proof.
  intros H Hf Hk. unfold local_facet. rewrite <- lfb_iff.
  assert (dim = 2 \/ dim = 3)%nat as [-> | ->] by lia.
  - do 4 (destruct f as [|f]; [do 4 (destruct k as [|k]; [vm_compute; intuition (try lia; try discriminate)|]); lia|]). lia.
  - do 6 (destruct f as [|f]; [do 6 (destruct k as [|k]; [vm_compute; intuition (try lia; try discriminate)|]); lia|]). lia.
Qed.
Lemma combine_map {A B C} (f : A -> B) (h : A -> C) l : combine (map f l) (map h l) = map (fun x => (f x, h x)) l.
Proof. induction l; cbn; congruence. Qed.
Lemma filter_map_c {A B} (f : A -> B) (q : B -> bool) l : filter q (map f l) = map f (filter (fun x => q (f x)) l).
Proof. induction l as [|a l IH]; cbn; auto. destruct (q (f a)); cbn; congruence. Qed.

Section Facets.
  Variables (argsort : list Z -> list nat) (g : grid) (p : process) (m : mesh) (D : domain) (n_local : nat).
  Hypothesis Ha : sorts argsort.
  Hypothesis HD : domain_on g D m n_local.
  Hypothesis HP : facets_on g p m.

  Lemma created ty : (ty = Exterior \/ range_begin p = 0%nat) ->
    exists l, match ty with Interior => create_interior_mesh_facets p false | Exterior => create_exterior_mesh_facets p | AllFacets => create_all_mesh_facets p false end = Ret l
    /\ NoDup l /\ forall x, In x l <-> mesh_facet p ty x.
  Proof.
    intros H. destruct HP as (_ & MP & _ & _ & EX). destruct (C116_processes_partial p false MP) as ((le & Ee & (N1 & N2 & N3 & N4)) & R). pose proof MP as (W & _ & _ & _ & OX).
    assert (FO : forall (Q : nat -> Prop) l, (forall f, Q f -> owned p f) -> facets_of (topo p) Q false l -> NoDup l /\ forall x, In x l <-> exists f, is_facet (topo p) f (fst x) (snd x) /\ owned p f /\ Q f).
    { intros Q l HQ (A & B & C & E). split; auto. intros x. split.
      - intros I. destruct (B x I) as (f & Qf & If). eauto.
      - intros (f & If & _ & Qf). destruct (C f Qf) as (y & Iy & Fy). apply (E f y x); auto. }
    destruct ty.
    - exists le. split; auto. split; auto. intros x. split.
      + intros I. destruct (N2 x I) as (f & Q & F). exists f. auto.
      + intros (f & F & O & Q). destruct (N3 f Q) as (y & Iy & Fy). assert (x = y); [|subst; auto].
        destruct (EX f Q) as (c & Ec). destruct W as (W1 & W2). destruct (W1 f _ Ec) as (_ & _ & Hc).
        assert (Fx : fst x = c). { assert (In (fst x) [c]) by (apply Hc; eauto). cbn in *. intuition. } assert (Fy' : fst y = c). { assert (In (fst y) [c]) by (apply Hc; eauto). cbn in *. intuition. }
        destruct x as (a & b), y as (a' & b'). cbn in *. subst a a'. f_equal. eapply (is_facet_fun (topo p)); eauto. split; auto.
    - destruct H as [H|H]; [discriminate|]. destruct (R H) as (_ & (l & El & Fl)). exists l. split; auto. destruct (FO _ _ (fun f h => proj1 h) Fl) as (A & B). split; auto. intros x. rewrite B. unfold mesh_facet. split; intros (f & ? & ? & ?); exists f; tauto.
    - destruct H as [H|H]; [discriminate|]. destruct (R H) as ((l & El & Fl) & _). exists l. split; auto. destruct (FO _ _ (fun f h => h) Fl) as (A & B). split; auto. intros x. rewrite B. unfold mesh_facet. split; intros (f & ? & ? & ?); exists f; tauto.
  Qed.
  Lemma mesh_facet_bounds ty x : mesh_facet p ty x -> (fst x < length (original_cell_index m))%nat /\ (snd x < 2 * length (breaks g))%nat.
  Proof.
    intros (f & (fs & E1 & E2) & _). destruct HP as (_ & _ & L1 & L2 & _). split.
    - rewrite <- L1. apply nth_error_Some. congruence.
    - rewrite <- (L2 fs) by (eapply nth_error_In; eauto). apply nth_error_Some. congruence.
  Qed.
  (** The original cells and lexicographical facets. *)
  Lemma renumber : exists co : nat -> Z, (forall k, (k < length (original_cell_index m))%nat -> original_of m (Z.of_nat k) (co k)) /\
    forall l : list facet, (forall x, In x l -> (fst x < length (original_cell_index m))%nat /\ (snd x < 2 * length (breaks g))%nat) ->
      let h := fun x : facet => (co (fst x), Z.of_nat (nth (snd x) (tab (length (breaks g))) 0%nat)) in
      to_original m (length (breaks g)) l = Ret (map h l) /\ to_DOLFINx argsort m (length (breaks g)) (map h l) = Ret (map (fun x => (Z.of_nat (fst x), Z.of_nat (snd x))) l).
  Proof.
    destruct (cells_list m) as (cs & Lc & Oc). exists (fun k => nth k cs 0). split; [intros k Hk; apply Oc; lia|]. intros l Hl h.
    destruct HP as (Hd & _). destruct (tables _ Hd) as (T1 & T2 & L1 & L2 & T3). unfold to_original, to_DOLFINx. rewrite T1, T2.
    assert (R : get_original_cell_ids m (map (fun x : facet => Z.of_nat (fst x)) l) = Ret (map (fun x : facet => nth (fst x) cs 0) l) /\
                get_DOLFINx_local_cell_ids argsort m (map (fun x : facet => nth (fst x) cs 0) l) = Ret (map (fun x : facet => Z.of_nat (fst x)) l)).
    { destruct l as [|x0 l0].
      - cbn [map]. unfold get_original_cell_ids, get_DOLFINx_local_cell_ids. assert (FE : forall a, find_in_array argsort [] a = Ret []). { intros a. destruct (find_ok argsort a [] Ha (or_intror eq_refl)) as (rs & Er & Fr). inversion Fr; subst. auto. }
        split; [cbn [forallb assert_ take_zids pmap bind]; destruct (active_cells m); reflexivity|]. destruct (active_cells m); [rewrite FE|]; cbn [bind]; apply FE.
      - destruct HD as (_ & HC & _). assert (NE : original_cell_index m <> []). { destruct (Hl x0 ltac:(cbn; auto)) as (B & _). intros Z. rewrite Z in B. cbn in B. lia. }
        destruct (C117_cells_partial argsort m _ Ha HC NE) as (P1 & _). destruct (P1 (map (fun x : facet => Z.of_nat (fst x)) (x0 :: l0))) as (orig & E1 & F1 & E2).
        { intros i Hi. apply in_map_iff in Hi. destruct Hi as (x & <- & Ix). destruct (Hl x Ix). lia. }
        assert (orig = map (fun x : facet => nth (fst x) cs 0) (x0 :: l0)) as ->; [|auto]. clear E1 E2. revert orig F1 Hl. generalize (x0 :: l0) as l. clear - Lc Oc. induction l as [|x l IH]; intros orig F Hl; cbn [map] in *; inversion F as [|a b u v H1 H2]; subst; auto.
        f_equal; [|apply IH; auto; intros; apply Hl; cbn; auto]. destruct (Hl x ltac:(cbn; auto)). eapply original_fun; eauto. apply Oc. lia. }
    destruct R as (R1 & R2). split; [match goal with |- bind ?a _ = _ => replace a with (get_original_cell_ids m (map (fun x : facet => Z.of_nat (fst x)) l)) by reflexivity end; rewrite R1; cbn [bind]|].
    - rewrite (take_ids_ok _ 0%nat). 2:{ intros i Hi. apply in_map_iff in Hi. destruct Hi as (x & <- & Ix). destruct (Hl x Ix). lia. } cbn [bind]. rewrite !map_map, combine_map. reflexivity.
    - rewrite !map_map. replace (map (fun x => fst (h x)) l) with (map (fun x : facet => nth (fst x) cs 0) l) by reflexivity. rewrite R2. cbn [bind].
      rewrite (take_zids_ok _ 0%nat). 2:{ intros i Hi. apply in_map_iff in Hi. destruct Hi as (x & <- & Ix). unfold h. cbn [snd]. destruct (Hl x Ix) as (_ & B). destruct (T3 _ B). lia. }
      cbn [bind]. rewrite !map_map, combine_map. f_equal. apply map_ext_in. intros x Ix. unfold h. cbn [snd]. rewrite Nat2Z.id. destruct (Hl x Ix) as (_ & B). destruct (T3 _ B) as (_ & ->). reflexivity.
  Qed.
  Definition facet_queries : list (Z -> Z -> outcome bool) := [is_full_facet D; is_empty_facet D; is_cut_facet D; is_full_unfitted_facet D; has_unfitted_boundary D].
  Lemma on_facet_iff q x co : (forall k, (k < length (original_cell_index m))%nat -> original_of m (Z.of_nat k) (co k)) -> (fst x < length (original_cell_index m))%nat -> (snd x < 2 * length (breaks g))%nat ->
    (on_facet g m q x <-> q (co (fst x)) (Z.of_nat (nth (snd x) (tab (length (breaks g))) 0%nat)) = Ret true).
  Proof.
    intros O B1 B2. destruct HP as (Hd & _). destruct (tables _ Hd) as (_ & _ & _ & _ & T3). destruct (T3 _ B2) as (T4 & _). split.
    - intros (c & f & Oc & Hf & LF & Q). apply local_facet_tab in LF; auto. subst f. rewrite <- (original_fun _ _ _ _ Oc (O _ B1)). auto.
    - intros Q. exists (co (fst x)), (nth (snd x) (tab (length (breaks g))) 0%nat). split; auto. split; auto. split; auto. apply local_facet_tab; auto.
  Qed.
  (** The list of facets: the created ones, in the same order, filtered by the query. *)
  Lemma get_facets_ok q ty : In q facet_queries -> (ty = Exterior \/ range_begin p = 0%nat) ->
    exists l, get_facets argsort p m D q ty = Ret l /\ NoDup l /\ forall x, In x l <-> mesh_facet p ty x /\ on_facet g m q x.
  Proof.
    intros Hq Hty. destruct (created ty Hty) as (base & E & ND & IB). destruct renumber as (co & Oco & R).
    destruct HD as ((sign & ccell & cfacet & s & HB) & HC & Hn). destruct (built_grid _ _ _ _ _ _ HB) as (EG & N1).
    assert (BB : forall x, In x base -> (fst x < length (original_cell_index m))%nat /\ (snd x < 2 * length (breaks g))%nat) by (intros x Ix; eapply mesh_facet_bounds; apply IB; eauto).
    destruct (R base BB) as (R1 & _). set (h := fun x : facet => (co (fst x), Z.of_nat (nth (snd x) (tab (length (breaks g))) 0%nat))) in *. cbv zeta in *.
    destruct HP as (Hd & _). destruct (tables _ Hd) as (_ & _ & _ & _ & T3).
    assert (V : forall x, In x base -> cell_id g (fst (h x)) /\ facet_id g (snd (h x))).
    { intros x Ix. destruct (BB x Ix) as (B1 & B2). cbn. split; [pose proof (original_range m _ _ _ HC (Oco _ B1)); unfold cell_id; lia|]. destruct (T3 _ B2). unfold facet_id. lia. }
    destruct (C21_target_facet_lists _ _ _ _ _ _ HB q (map fst (map h base)) (map snd (map h base)) Hq) as (l & E1 & E2).
    { rewrite !map_length. auto. } { apply Forall_forall. intros c Hc. rewrite map_map in Hc. apply in_map_iff in Hc. destruct Hc as (x & <- & Ix). apply V; auto. }
    { apply Forall_forall. intros c Hc. rewrite map_map in Hc. apply in_map_iff in Hc. destruct Hc as (x & <- & Ix). apply V; auto. }
    rewrite combine_map in E2. rewrite (map_ext _ (fun x => x)) in E2 by (intros []; reflexivity). rewrite map_id, filter_map_c in E2.
    set (keep := fun x : facet => match q (fst (h x)) (snd (h x)) with Ret true => true | _ => false end) in E2.
    destruct (R (filter keep base)) as (_ & R2). { intros x Ix. apply filter_In in Ix. apply BB. tauto. }
    exists (filter keep base). unfold get_facets, dim_of. rewrite EG. rewrite E. cbn [bind]. rewrite R1. cbn [bind]. rewrite E1. cbn [bind]. rewrite E2. fold h in R2. rewrite R2. cbn [bind].
    assert (X : forall l : list (nat * nat), map (fun x => (Z.to_nat (fst x), Z.to_nat (snd x))) (map (fun x => (Z.of_nat (fst x), Z.of_nat (snd x))) l) = l).
    { induction l0 as [|(a & b) l0 IH]; cbn [map fst snd]; auto. rewrite IH, !Nat2Z.id. auto. }
    split; [rewrite X; auto|].
    split; [apply NoDup_filter; auto|]. intros x. rewrite filter_In, IB. split; intros (H1 & H2); split; auto; destruct (mesh_facet_bounds _ _ H1) as (B1 & B2).
    - apply (on_facet_iff q x co Oco B1 B2). unfold keep, h in H2. cbn [fst snd] in H2. destruct (q _ _) as [[]| | |]; congruence.
    - apply (on_facet_iff q x co Oco B1 B2) in H2. unfold keep, h. cbn [fst snd]. rewrite H2. auto.
  Qed.
  (** A facet of the process has one of the statuses. *)
  Lemma facet_kind_on ty x : mesh_facet p ty x -> exists st,
    (on_facet g m (is_full_facet D) x <-> st_is_full st = true) /\ (on_facet g m (is_empty_facet D) x <-> st_is_empty st = true) /\ (on_facet g m (is_cut_facet D) x <-> st_is_cut st = true)
    /\ (on_facet g m (is_full_unfitted_facet D) x <-> st_is_full_unf st = true) /\ (on_facet g m (has_unfitted_boundary D) x <-> st_has_unf st = true).
  Proof.
    intros H. destruct (mesh_facet_bounds _ _ H) as (B1 & B2). destruct renumber as (co & Oco & _). pose proof HD as ((sign & ccell & cfacet & s & HB) & HC & Hn).
    destruct (tables _ (proj1 HP)) as (_ & _ & _ & _ & T3). destruct (T3 _ B2) as (T4 & _).
    destruct (facet_kind _ _ _ _ _ _ HB (co (fst x)) (Z.of_nat (nth (snd x) (tab (length (breaks g))) 0%nat))) as (st & K1 & K2 & K3 & K4 & K5).
    { pose proof (original_range m _ _ _ HC (Oco _ B1)). unfold cell_id. lia. } { unfold facet_id. lia. }
    exists st. rewrite !(fun q => on_facet_iff q x co Oco B1 B2), K1, K2, K3, K4, K5. repeat split; congruence.
  Qed.
End Facets.
