(** C115: operations on lists of facets. C116: facets of a mesh from their ids; exterior, interior and all facets of a process. *)
From Coq Require Import List Arith Bool Lia Permutation Sorting.Sorted.
From Verif Require Import M_PyBase M_PyNodes M_PyFacets S_PyFacets L_PyNodes L_PyTp L_PyFacets.
Import ListNotations.
Local Open Scope nat_scope.

(** C115: unique keeps the set of facets, in increasing order without repetitions; intersect and difference are the set operations, also
    in increasing order; with assume_unique, for lists without repetitions, intersect does the same and difference keeps the order of the list. *)
Theorem C115_set_operations : forall a b,
  lists_facets (fun x => In x a) (mf_unique a)
  /\ mf_concatenate a b = a ++ b
  /\ lists_facets (fun x => In x a /\ In x b) (mf_intersect a b false)
  /\ lists_facets (fun x => In x a /\ ~ In x b) (mf_difference a b false)
  /\ (NoDup a -> NoDup b -> lists_facets (fun x => In x a /\ In x b) (mf_intersect a b true))
  /\ (NoDup a -> NoDup (mf_difference a b true) /\ (forall x, In x (mf_difference a b true) <-> In x a /\ ~ In x b)
        /\ exists keep, mf_difference a b true = filter keep a).
Proof.
  intros a b. split; [apply unique_ok|]. split; [reflexivity|]. destruct (unique_ok a) as (Sa & Ia), (unique_ok b) as (Sb & Ib).
  assert (D : forall l x, In x (filter (fun x => negb (mem_f x b)) l) <-> In x l /\ ~ In x b).
  { intros l x. rewrite filter_In, negb_true_iff. rewrite <- (mem_iff x b). split; intros (H & K); split; auto; [congruence|destruct (mem_f x b); congruence]. }
  split; [|split; [|split]].
  - unfold mf_intersect. destruct (intersect_nodup (unique_f a) (unique_f b) (unique_nodup a) (unique_nodup b)) as (S & I). split; auto. intros x. rewrite I, Ia, Ib. tauto.
  - unfold mf_difference. split; [apply ssf_filter; auto|]. intros x. rewrite D, Ia. tauto.
  - intros Na Nb. apply intersect_nodup; auto.
  - intros Na. unfold mf_difference. split; [apply NoDup_filter; auto|]. split; [intros x; apply D|]. eexists. reflexivity.
Qed.
(** find gives positions of the facets of [other] in [self] (the last one of a repeated facet) and raises when one is not there. *)
Theorem C115_find : forall self other,
  (incl other self -> exists ids, mf_find self other = Ret ids
     /\ Forall2 (fun x i => nth_error self i = Some x /\ forall j, i < j -> nth_error self j <> Some x) other ids)
  /\ (~ incl other self -> mf_find self other = Abort).
Proof.
  intros self other. unfold mf_find. split; intros H.
  - destruct (pmap_ret (fun x => match dict_get x 0 self with Some i => Ret i | None => Abort end) other) as (ids & E & F).
    { intros x Hx. pose proof (dict_ok x self 0) as D. destruct (dict_get x 0 self); [eauto|]. destruct D. auto. }
    exists ids. split; auto. clear - F. induction F as [|x i other ids Q F IH]; constructor; auto. pose proof (dict_ok x self 0) as D. destruct (dict_get x 0 self) as [k|]; [|discriminate Q]. injection Q as <-. destruct D as (j & -> & E & M). cbn. auto.
  - assert (X : exists x, In x other /\ ~ In x self).
    { assert (G : forallb (fun x => mem_f x self) other <> true). { intros G. apply H. intros x Hx. rewrite forallb_forall in G. apply mem_iff. auto. }
      clear H. induction other as [|x other IH]; [destruct G; reflexivity|]. cbn in G. destruct (mem_f x self) eqn:M; [destruct IH as (y & Hy & N); [auto|exists y; cbn; auto]|]. exists x. split; [cbn; auto|]. intros I. apply mem_iff in I. congruence. }
    destruct X as (x & Hx & N). apply (pmap_abort _ _ x); auto.
    + intros z _. destruct (dict_get z 0 self); eauto.
    + pose proof (dict_ok x self 0) as D. destruct (dict_get x 0 self) as [i|]; auto. destruct D as (j & _ & E & _). destruct N. eapply nth_error_In; eauto.
Qed.
(** as_array interleaves cells and local facets. *)
Theorem C115_as_array : forall l, length (as_array l) = 2 * length l
  /\ forall i c k, nth_error l i = Some (c, k) -> nth_error (as_array l) (2 * i) = Some c /\ nth_error (as_array l) (2 * i + 1) = Some k.
Proof.
  induction l as [|[c0 k0] l (L & N)]; [split; auto; intros [|i]; discriminate|]. split; [unfold as_array in *; cbn [flat_map app length]; lia|]. intros [|i] c k E; [injection E as -> ->; auto|].
  replace (2 * S i) with (S (S (2 * i))) by lia. replace (S (S (2 * i)) + 1) with (S (S (2 * i + 1))) by lia. cbn. apply N. auto.
Qed.
Print Assumptions C115_set_operations.
Print Assumptions C115_find.
Print Assumptions C115_as_array.
Example C115_case : mf_unique [(3, 1); (2, 0); (3, 1); (2, 5)] = [(2, 0); (2, 5); (3, 1)] /\ mf_intersect [(3, 1); (2, 0)] [(2, 0); (1, 1); (2, 0)] false = [(2, 0)]
  /\ mf_difference [(3, 1); (2, 0); (3, 1)] [(2, 0)] false = [(3, 1)] /\ mf_find [(3, 1); (2, 0); (3, 1)] [(2, 0); (3, 1)] = Ret [1; 2] /\ mf_find [(3, 1)] [(3, 2)] = Abort
  /\ as_array [(3, 1); (2, 0)] = [3; 1; 2; 0].
Proof. repeat split. Qed.

(** C116: create_facets_from_ids gives, for each facet id, the cell and local facet (one, or one per cell of the facet), and get_facet_ids is its
    inverse; *)
Lemma nodup_concat_disj {A} (f : nat -> A -> Prop) ids (ls : list (list A)) : (forall i j x, f i x -> f j x -> i = j) -> NoDup ids ->
  Forall2 (fun i l => NoDup l /\ forall x, In x l -> f i x) ids ls -> NoDup (concat ls).
Proof.
  intros U N F. induction F as [|i l ids ls (P & Q) F IH]; [constructor|]. inversion N as [|? ? N1 N2]; subst. cbn. specialize (IH N2).
  assert (D : forall x, In x l -> ~ In x (concat ls)).
  { intros x Hx H. apply in_concat in H. destruct H as (l' & Hl & Hx'). apply N1. clear - F Hl Hx' Hx Q U. induction F as [|j m ids ls (P' & Q') F IH]; [destruct Hl|]. destruct Hl as [->|Hl]; [left; apply (U j i x); auto|right; auto]. }
  clear - P D IH. induction P as [|x l Nx P IHl]; cbn; auto. constructor; [rewrite in_app_iff; intros [H|H]; [auto|apply (D x); cbn; auto]|]. apply IHl. intros y Hy. apply D. cbn. auto.
Qed.
Lemma facet_id_unique T c k f f' : is_facet T f c k -> is_facet T f' c k -> f = f'.
Proof. intros (fs & E & N) (fs' & E' & N'). congruence. Qed.
Theorem C116_from_ids_partial : forall T ids single, mesh_topology T -> NoDup ids -> (forall f, In f ids -> f < length (facet_cells T)) ->
  exists l, create_facets_from_ids T ids single = Ret l /\ facets_of T (fun f => In f ids) single l /\ (single = true -> get_facet_ids T l = Ret ids).
Proof.
  intros T ids single W N H. destruct (from_ids_ok T W ids single H) as (ls & E & F). exists (concat ls). split; auto.
  assert (Fwd : forall x, In x (concat ls) -> exists f l, In f ids /\ In l ls /\ In x l /\ is_facet T f (fst x) (snd x)).
  { clear - F. induction F as [|f l ids ls P F IH]; intros x Hx; [destruct Hx|]. cbn in Hx. apply in_app_iff in Hx. destruct Hx as [Hx|Hx]; [exists f, l; cbn; repeat split; auto; apply P; auto|].
    destruct (IH x Hx) as (f' & l' & ? & ? & ? & ?). exists f', l'. cbn. auto. }
  assert (Bwd : forall f, In f ids -> exists l, In l ls /\ NoDup l /\ 1 <= length l /\ (forall p, In p l -> is_facet T f (fst p) (snd p)) /\ (if single then length l = 1 else forall p, is_facet T f (fst p) (snd p) -> In p l)).
  { clear - F. induction F as [|f l ids ls P F IH]; intros g Hg; [destruct Hg|]. destruct Hg as [->|Hg]; [exists l; destruct P as (? & ? & ? & ?); cbn; repeat split; auto|]. destruct (IH g Hg) as (l' & ? & ?). exists l'. cbn. auto. }
  assert (ND : NoDup (concat ls)).
  { apply (nodup_concat_disj (fun f x => is_facet T f (fst x) (snd x)) ids); auto; [intros i j x; apply facet_id_unique|]. clear - F. induction F as [|f l ids ls P F IH]; constructor; auto. destruct P as (? & ? & ?). auto. }
  assert (Only : forall f l x, In f ids -> In l ls -> (forall p, In p l -> is_facet T f (fst p) (snd p)) -> 1 <= length l -> In x (concat ls) -> is_facet T f (fst x) (snd x) -> In x l).
  { intros f l x If Il Pl Ln Ix Hx. clear - N F If Il Pl Ln Ix Hx. induction F as [|g m ids ls P F IH]; [destruct Il|]. inversion N as [|? ? N1 N2]; subst. cbn in Ix. apply in_app_iff in Ix. destruct P as (P1 & P2 & P3 & _).
    assert (Head : forall y, In y m -> is_facet T f (fst y) (snd y) -> f = g) by (intros y Iy Hy; apply (facet_id_unique T (fst y) (snd y)); auto).
    assert (Tail : forall y, In y (concat ls) -> is_facet T f (fst y) (snd y) -> In f ids).
    { intros y Iy Hy. clear - F Iy Hy. induction F as [|g m ids ls P F IH]; [destruct Iy|]. cbn in Iy. apply in_app_iff in Iy. destruct Iy as [Iy|Iy]; [left; apply (facet_id_unique T (fst y) (snd y)); auto; apply P; auto|right; auto]. }
    destruct Ix as [Ix|Ix].
    - pose proof (Head x Ix Hx) as ->. destruct Il as [->|Il]; auto. exfalso. destruct l as [|y l]; [cbn in Ln; lia|]. apply N1. apply (Tail y); [apply in_concat; exists (y :: l); cbn; auto|apply Pl; cbn; auto].
    - pose proof (Tail x Ix Hx) as Fi. destruct Il as [->|Il].
      + exfalso. destruct l as [|y l]; [cbn in Ln; lia|]. assert (f = g) by (apply (Head y); [cbn; auto|apply Pl; cbn; auto]). subst. auto.
      + apply IH; auto. }
  split; [split; [auto|split; [|split]]|].
  - intros x Hx. destruct (Fwd x Hx) as (f & _ & ? & _ & _ & ?). eauto.
  - intros f Hf. destruct (Bwd f Hf) as (l & Hl & _ & Ln & Pl & _). destruct l as [|x l]; [cbn in Ln; lia|]. exists x. split; [apply in_concat; exists (x :: l); cbn; auto|apply Pl; cbn; auto].
  - intros f x y Hx Fx Fy. destruct (Fwd x Hx) as (f' & _ & If & _ & _ & Fx'). assert (f' = f) by (eapply facet_id_unique; eauto). subst f'. destruct (Bwd f If) as (l & Hl & _ & Ln & Pl & Sg). pose proof (Only f l x If Hl Pl Ln Hx Fx) as Lx. destruct single.
    + intros Hy. pose proof (Only f l y If Hl Pl Ln Hy Fy) as Ly. destruct l as [|z [|? ?]]; try discriminate Sg. destruct Lx as [<-|[]], Ly as [<-|[]]. auto.
    + apply in_concat. exists l. auto.
  - intros ->. unfold get_facet_ids. clear - F. induction F as [|f l ids ls P F IH]; [reflexivity|]. destruct P as (P & _ & _ & L). destruct l as [|x [|? ?]]; try discriminate L. cbn [concat app pmap].
    destruct (P x ltac:(cbn; auto)) as (fs & E & N). unfold pat at 1 2. rewrite E. cbn [bind]. rewrite N. cbn [bind]. rewrite IH. reflexivity.
Qed.
(** create_exterior_mesh_facets, create_interior_mesh_facets and create_all_mesh_facets give the exterior, the interior and all the owned
    facets of the process. Refuted: on every process but the first (and those without facets) the last two take the global ids of the facets
    for local ones; they raise, or return facets the process does not own. *)
Lemma arange_owned b e f : In f (arange b e 1) <-> b <= f < e.
Proof. rewrite arange1, in_seq. lia. Qed.
Lemma from_ids_any T ids single l f : mesh_topology T -> In f ids -> create_facets_from_ids T ids single = Ret l -> exists x, In x l /\ is_facet T f (fst x) (snd x).
Proof.
  intros W I E. assert (B : forall g, In g ids -> g < length (facet_cells T)).
  { intros g Hg. unfold create_facets_from_ids in E. destruct (nth_error (facet_cells T) g) eqn:G; [apply nth_error_Some; congruence|]. exfalso.
    match type of E with bind (pmap ?h ids) _ = _ => assert (X : forall z, pmap h ids <> Ret z); [|destruct (pmap h ids) as [z| | |]; try discriminate E; apply (X z); auto] end.
    clear E I. intros z. revert z. induction ids as [|i ids IH]; [destruct Hg|]. intros z. cbn [pmap]. destruct Hg as [->|Hg].
    - unfold pat at 1. rewrite G. cbn. discriminate.
    - match goal with |- bind ?u _ <> _ => destruct u as [y| | |] end; cbn [bind]; try discriminate. specialize (IH Hg). match goal with |- bind ?u _ <> _ => destruct u as [ys| | |] end; cbn [bind]; try discriminate. exfalso. eapply IH; reflexivity. }
  destruct (from_ids_ok T W ids single B) as (ls & E' & F). rewrite E in E'. assert (l = concat ls) as -> by congruence. clear - F I.
  induction F as [|g m ids ls P F IH]; [destruct I|]. destruct P as (P1 & _ & P3 & _). destruct I as [->|I].
  - destruct m as [|x m]; [cbn in P3; lia|]. exists x. cbn. split; auto. apply P1. cbn. auto.
  - destruct (IH I) as (x & Hx & Fx). exists x. split; auto. cbn. apply in_or_app. auto.
Qed.
Theorem C116_all_refuted : forall p single, mesh_process p -> 0 < range_begin p < range_end p ->
  ~ exists l, create_all_mesh_facets p single = Ret l /\ facets_of (topo p) (owned p) single l.
Proof.
  intros p single (W & _) R (l & E & (_ & O & _)). unfold create_all_mesh_facets in E.
  assert (I : In (range_end p - 1) (arange (range_begin p) (range_end p) 1)) by (apply arange_owned; lia).
  destruct (from_ids_any _ _ _ _ _ W I E) as (x & Hx & Fx). destruct (O x Hx) as (f & Of & Ff). assert (f = range_end p - 1) by (eapply facet_id_unique; eauto). unfold owned in Of. lia.
Qed.
Theorem C116_interior_refuted : forall p single, mesh_process p -> 0 < range_begin p < range_end p -> ~ In (range_end p - 1) (exterior p) ->
  ~ exists l, create_interior_mesh_facets p single = Ret l /\ facets_of (topo p) (fun f => owned p f /\ ~ In f (exterior p)) single l.
Proof.
  intros p single (W & _) R N (l & E & (_ & O & _)). unfold create_interior_mesh_facets in E.
  assert (I : In (range_end p - 1) (filter (fun f => negb (existsb (Nat.eqb f) (exterior p))) (arange (range_begin p) (range_end p) 1))).
  { apply filter_In; split; [apply arange_owned; lia|]; apply negb_true_iff; destruct (existsb _ _) eqn:X; auto; apply existsb_exists in X; destruct X as (y & Hy & Ey); apply Nat.eqb_eq in Ey; subst y; contradiction. }
  destruct (from_ids_any _ _ _ _ _ W I E) as (x & Hx & Fx).
  destruct (O x Hx) as (f & (Of & _) & Ff). assert (f = range_end p - 1) by (eapply facet_id_unique; eauto). unfold owned in Of. lia.
Qed.
(** Proved: the exterior facets on any process, and all three on the first process (so also in serial). *)
Theorem C116_processes_partial : forall p single, mesh_process p ->
  (exists l, create_exterior_mesh_facets p = Ret l /\ facets_of (topo p) (fun f => In f (exterior p)) true l)
  /\ (range_begin p = 0 ->
      (exists l, create_all_mesh_facets p single = Ret l /\ facets_of (topo p) (owned p) single l)
      /\ (exists l, create_interior_mesh_facets p single = Ret l /\ facets_of (topo p) (fun f => owned p f /\ ~ In f (exterior p)) single l)).
Proof.
  intros p single (W & R & L & Nx & Ox). assert (Ext : forall (P Q : nat -> Prop) s l, (forall f, P f <-> Q f) -> facets_of (topo p) P s l -> facets_of (topo p) Q s l).
  { intros P Q s l H (A & B & C & D). split; auto. split; [intros x Hx; destruct (B x Hx) as (f & ? & ?); exists f; split; auto; apply H; auto|]. split; auto. intros f Hf. apply C. apply H. auto. }
  split; [|intros B0; split].
  - unfold create_exterior_mesh_facets. destruct (C116_from_ids_partial (topo p) (exterior p) true W Nx) as (l & E & F & _). { intros f Hf. apply Ox in Hf. unfold owned in Hf. lia. } eauto.
  - unfold create_all_mesh_facets. destruct (C116_from_ids_partial (topo p) (arange (range_begin p) (range_end p) 1) single W) as (l & E & F & _).
    { rewrite arange1. apply seq_NoDup. } { intros f Hf. apply arange_owned in Hf. lia. }
    exists l. split; auto. eapply Ext; [|exact F]. intros f. rewrite arange_owned. unfold owned. lia.
  - unfold create_interior_mesh_facets. destruct (C116_from_ids_partial (topo p) (filter (fun f => negb (existsb (Nat.eqb f) (exterior p))) (arange (range_begin p) (range_end p) 1)) single W) as (l & E & F & _).
    { apply NoDup_filter. rewrite arange1. apply seq_NoDup. } { intros f Hf. apply filter_In in Hf. destruct Hf as (Hf & _). apply arange_owned in Hf. lia. }
    exists l. split; auto. eapply Ext; [|exact F]. intros f. cbn beta. rewrite filter_In, arange_owned, negb_true_iff. unfold owned. rewrite B0. rewrite Nat.sub_0_r.
    assert (X : existsb (Nat.eqb f) (exterior p) = true <-> In f (exterior p)). { rewrite existsb_exists. split; [intros (y & Hy & Ey); apply Nat.eqb_eq in Ey; subst; auto|intros H; exists f; split; auto; apply Nat.eqb_refl]. }
    destruct (existsb (Nat.eqb f) (exterior p)); split; intros (H1 & H2); split; try lia; auto; try congruence; [exfalso; apply H2, X; auto|intros Q; apply X in Q; discriminate].
Qed.
Print Assumptions C116_from_ids_partial.
Print Assumptions C116_all_refuted.
Print Assumptions C116_interior_refuted.
Print Assumptions C116_processes_partial.
(** Two cells of an interval mesh of four, on the second process: it owns the points 0 (global 3) and 1 (global 4, exterior); the point 2, shared,
    belongs to the first process. *)
Definition second_process : process := {| topo := {| cell_facets := [[2; 0]; [0; 1]]; facet_cells := [[0; 1]; [1]; [0]] |}; range_begin := 3; range_end := 5; exterior := [1] |}.
Definition first_process : process := {| topo := {| cell_facets := [[0; 1]; [1; 2]]; facet_cells := [[0]; [0; 1]; [1]] |}; range_begin := 0; range_end := 3; exterior := [0] |}.
Ltac topo_case := split; [intros f cs E; do 3 (destruct f as [|f]; [cbn in E; injection E as <-; split; [repeat constructor; cbn; lia|split; [cbn; lia|]]; intros c; split;
   [ intros H; cbn in H; repeat (destruct H as [<-|H]; [first [exists 0; eexists; split; reflexivity | exists 1; eexists; split; reflexivity]|]); destruct H
   | intros (k & fs & E & N); do 2 (destruct c as [|c]; [cbn in E; injection E as <-; do 2 (destruct k as [|k]; [cbn in N; first [discriminate N | cbn; auto]|]); destruct k; discriminate N|]); destruct c; discriminate E ]|]); destruct f; discriminate E
  | intros c fs E; do 2 (destruct c as [|c]; [cbn in E; injection E as <-; repeat constructor; cbn; lia|]); destruct c; discriminate E ].
Lemma second_process_ok : mesh_process second_process.
Proof. split; [topo_case|]. cbn. repeat split; try lia; [repeat constructor; auto|]. intros f [<-|[]]. unfold owned. cbn. lia. Qed.
Lemma first_process_ok : mesh_process first_process.
Proof. split; [topo_case|]. cbn. repeat split; try lia; [repeat constructor; auto|]. intros f [<-|[]]. unfold owned. cbn. lia. Qed.
Example C116_case : create_all_mesh_facets second_process false = Abort /\ create_exterior_mesh_facets second_process = Ret [(1, 1)]
  /\ create_all_mesh_facets first_process false = Ret [(0, 0); (0, 1); (1, 0); (1, 1)] /\ create_interior_mesh_facets first_process true = Ret [(0, 1); (1, 1)].
Proof. repeat split. Qed.
