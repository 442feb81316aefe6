(** C124: cells of an unfitted domain on a mesh. C125: facets, numberings. C126: lists of facets for exterior and interior integrals.
    C127: order of the calls. *)
From Coq Require Import List Arith Bool Lia ZArith Permutation Sorting.Sorted Reals Lra.
From Verif Require Import M_Domain S_Domain L_Domain L_DomainQ L_DomainT P_Domain.
From Verif Require Import M_PyBase M_PyNodes M_PyFacets M_PyMesh M_PyUnf S_PyTp S_PyTpMesh S_PyMesh S_PyFacets S_PyUnf L_PyNodes L_PyFacets L_PyMesh P_PyMesh P_PyFacets P_PyTpMesh P_PyTpMesh2 L_PyUnf L_PyUnf2 L_PyUnf3.
Import ListNotations. Local Close Scope R_scope.
Local Open Scope Z_scope.

(** C124: get_cut_cells, get_full_cells and get_empty_cells give, in increasing order, exactly the cells owned by the process whose original
    cell is cut, full, empty; every owned cell is in exactly one of the lists. *)
Theorem C124_cells : forall sort argsort g D m n_local, sorting sort -> sorts argsort -> domain_on g D m n_local ->
  exists cut full empty,
    py_get_cells sort argsort m n_local D Ccut = Ret cut /\ py_get_cells sort argsort m n_local D Cfull = Ret full /\ py_get_cells sort argsort m n_local D Cempty = Ret empty
    /\ (StronglySorted Z.lt cut /\ forall i, In i cut <-> 0 <= i < Z.of_nat n_local /\ exists c, original_of m i c /\ is_cut_cell D c = Ret true)
    /\ (StronglySorted Z.lt full /\ forall i, In i full <-> 0 <= i < Z.of_nat n_local /\ exists c, original_of m i c /\ is_full_cell D c = Ret true)
    /\ (StronglySorted Z.lt empty /\ forall i, In i empty <-> 0 <= i < Z.of_nat n_local /\ exists c, original_of m i c /\ is_empty_cell D c = Ret true)
    /\ forall i, 0 <= i < Z.of_nat n_local -> (In i cut /\ ~ In i full /\ ~ In i empty) \/ (~ In i cut /\ In i full /\ ~ In i empty) \/ (~ In i cut /\ ~ In i full /\ In i empty).
Proof.
  intros sort argsort g D m n_local Hs Ha HD.
  destruct (get_cells_py sort argsort g D m n_local Hs Ha HD Ccut) as (cut & E1 & S1 & I1); [discriminate|].
  destruct (get_cells_py sort argsort g D m n_local Hs Ha HD Cfull) as (full & E2 & S2 & I2); [discriminate|].
  destruct (get_cells_py sort argsort g D m n_local Hs Ha HD Cempty) as (empty & E3 & S3 & I3); [discriminate|].
  exists cut, full, empty. do 3 (split; [assumption|]). do 3 (split; [split; assumption|]). intros i Bi. destruct HD as ((sign & ccell & cfacet & s & HB) & HC & Hn).
  destruct (original_ex m i) as (c & O); [lia|]. assert (Hc : cell_id g c) by (pose proof (original_range m _ _ _ HC O); unfold cell_id; lia).
  destruct (C16_every_cell _ _ _ _ _ _ HB c Hc) as (st & h & CR & _ & Qf & Qe & Qc).
  assert (X : forall st', (0 <= i < Z.of_nat n_local /\ exists c, original_of m i c /\ cell_query D st' c = Ret true) <-> cell_query D st' c = Ret true).
  { intros st'. split; [intros (_ & c' & O' & Q); rewrite (original_fun _ _ _ _ O O'); auto|intros Q; split; eauto]. }
  rewrite !I1, !I2, !I3, !X. cbn [cell_query]. rewrite Qf, Qe, Qc. apply cr_entry in CR. destruct CR as (NU & _). destruct st; cbn [cstatus_eqb]; try (destruct NU; reflexivity).
  - left. repeat split; congruence.
  - right; left. repeat split; congruence.
  - right; right. repeat split; congruence.
Qed.
Print Assumptions C124_cells.

(** C125: to_original turns (local cell, facet of DOLFINx) into (original cell, lexicographical facet): the facet on the same side of the same
    cell; to_DOLFINx undoes it. *)
Theorem C125_numberings : forall argsort g p m D n_local, sorts argsort -> domain_on g D m n_local -> facets_on g p m ->
  forall l : list (nat * nat), (forall x, In x l -> (fst x < length (original_cell_index m))%nat /\ (snd x < 2 * length (breaks g))%nat) ->
  exists orig, to_original m (length (breaks g)) l = Ret orig
    /\ Forall2 (fun x y => original_of m (Z.of_nat (fst x)) (fst y) /\ exists f, (f < 2 * length (breaks g))%nat /\ local_facet (length (breaks g)) f (snd x) /\ snd y = Z.of_nat f) l orig
    /\ to_DOLFINx argsort m (length (breaks g)) orig = Ret (map (fun x => (Z.of_nat (fst x), Z.of_nat (snd x))) l).
Proof.
  intros argsort g p m D n_local Ha HD HP l Hl. destruct (renumber argsort g p m D n_local Ha HD HP) as (co & Oco & R). destruct (R l Hl) as (R1 & R2). eexists. split; [exact R1|]. split; [|exact R2].
  destruct (tables _ (proj1 HP)) as (_ & _ & _ & _ & T3). clear R R1 R2. induction l as [|x l IH]; cbn [map]; constructor; [|apply IH; intros; apply Hl; cbn; auto].
  destruct (Hl x ltac:(cbn; auto)) as (B1 & B2). destruct (T3 _ B2) as (T4 & _). cbn [fst snd]. split; auto. exists (nth (snd x) (tab (length (breaks g))) 0%nat). split; auto. split; auto. apply local_facet_tab; auto. apply HP.
Qed.
(** The facets selected by a query of the C++ object: exactly the owned facets of the given type for which it answers yes, each (cell, facet)
    once. For interior and all facets, on the first process only (see C116). *)
Theorem C125_selection_partial : forall argsort g p m D n_local, sorts argsort -> domain_on g D m n_local -> facets_on g p m ->
  forall query ty, In query [is_full_facet D; is_empty_facet D; is_cut_facet D; is_full_unfitted_facet D; has_unfitted_boundary D] -> (ty = Exterior \/ range_begin p = 0%nat) ->
  exists l, get_facets argsort p m D query ty = Ret l /\ NoDup l /\ forall x, In x l <-> mesh_facet p ty x /\ on_facet g m query x.
Proof. intros argsort g p m D n_local Ha HD HP query ty Hq Hty. exact (get_facets_ok argsort g p m D n_local Ha HD HP query ty Hq Hty). Qed.
Print Assumptions C125_numberings.
Print Assumptions C125_selection_partial.

(** C126: for exterior integrals, the three lists are those documented, without repetitions. *)
Theorem C126_exterior_lists : forall argsort g p m D n_local, sorts argsort -> domain_on g D m n_local -> facets_on g p m -> range_begin p = 0%nat ->
  (forall w, exists l s, get_which argsort p m D w true no_caches = Ret (l, s) /\ NoDup l /\ forall x, In x l <-> wanted g p m D w true x)
  /\ (forall x, mesh_facet p Exterior x -> exists w, wanted g p m D w true x /\ forall w', wanted g p m D w' true x -> w' = w)
  /\ (forall x, mesh_facet p Interior x -> ((exists w, wanted g p m D w true x) <-> on_facet g m (has_unfitted_boundary D) x) /\ forall w w', wanted g p m D w true x -> wanted g p m D w' true x -> w = w').
Proof.
  intros argsort g p m D n_local Ha HD HP R0. split; [|split].
  - intros w. destruct (get_simple argsort g p m D n_local Ha HD HP R0 w true false no_caches) as (l & s & E & _ & F); [destruct w; reflexivity|apply inv_none|].
    exists l, s. split; auto. destruct F as [F|(F & _)]; [|destruct w; discriminate F]. destruct (fresh_ok argsort g p m D n_local Ha HD HP R0 w true) as (l' & E' & N & I). assert (l = l') by congruence. subst. split; auto. intros x. rewrite I. destruct w; reflexivity.
  - intros x Hx. assert (Ax : mesh_facet p AllFacets x) by (destruct Hx as (f & ? & ? & _); exists f; auto). destruct (facet_kind_on argsort g p m D n_local Ha HD HP Exterior x Hx) as (st & K1 & K2 & K3 & K4 & K5).
    assert (W : forall w, wanted g p m D w true x <-> match w with WCut => st_is_cut st || (st_has_unf st && negb (st_is_full_unf st)) | WFull => st_is_full st || st_is_full_unf st | WEmpty => st_is_empty st end = true).
    { intros w. destruct w; cbn [wanted]; rewrite ?K1, ?K2, ?K3, ?K4, ?K5; destruct st; cbn; intuition (try discriminate; try tauto). }
    destruct st; [exists WCut|exists WFull|exists WEmpty|exists WCut|exists WCut|exists WCut|exists WFull|exists WEmpty|exists WCut|exists WEmpty|exists WCut]; (split; [apply W; reflexivity|]); intros w' Hw; apply W in Hw; destruct w'; cbn in Hw; congruence.
  - intros x Hx. assert (Ax : mesh_facet p AllFacets x) by (destruct Hx as (f & ? & ? & _); exists f; auto). destruct (facet_kind_on argsort g p m D n_local Ha HD HP Interior x Hx) as (st & K1 & K2 & K3 & K4 & K5).
    assert (NE : ~ mesh_facet p Exterior x). { destruct Hx as (f & Hf & _ & N). intros (f' & Hf' & _ & N'). apply N. rewrite (facet_id_unique _ _ _ _ _ Hf Hf'). auto. }
    assert (W : forall w, wanted g p m D w true x <-> match w with WCut => st_has_unf st && negb (st_is_full_unf st) | WFull => st_is_full_unf st | WEmpty => false end = true).
    { intros w. destruct w; cbn [wanted]; rewrite ?K1, ?K2, ?K3, ?K4, ?K5; destruct st; cbn; intuition (try discriminate; try tauto). }
    split.
    + rewrite K5. split; [intros (w & Hw); apply W in Hw; destruct w, st; cbn in Hw |- *; congruence|]. intros U. destruct st; cbn in U; try discriminate U; [exists WCut|exists WCut|exists WFull|exists WCut|exists WCut]; apply W; reflexivity.
    + intros w w' Hw Hw'. apply W in Hw, Hw'. destruct w, w', st; cbn in Hw, Hw'; congruence.
Qed.
(** For interior integrals every interior facet should be in exactly one of the three lists: so the documentation. *)
Theorem C126_interior_documented : forall argsort g p m D n_local, sorts argsort -> domain_on g D m n_local -> facets_on g p m ->
  forall x, mesh_facet p Interior x -> exists w, wanted g p m D w false x /\ forall w', wanted g p m D w' false x -> w' = w.
Proof.
  intros argsort g p m D n_local Ha HD HP x Hx. destruct (facet_kind_on argsort g p m D n_local Ha HD HP Interior x Hx) as (st & K1 & K2 & K3 & K4 & K5).
  assert (W : forall w, wanted g p m D w false x <-> match w with WCut => st_is_cut st | WFull => st_is_full st | WEmpty => st_is_empty st || (st_has_unf st && negb (st_is_cut st)) end = true).
  { intros w. destruct w; cbn [wanted]; rewrite ?K1, ?K2, ?K3, ?K4, ?K5; destruct st; cbn; intuition (try discriminate; try tauto). }
  destruct st; [exists WCut|exists WFull|exists WEmpty|exists WCut|exists WCut|exists WCut|exists WEmpty|exists WEmpty|exists WEmpty|exists WEmpty|exists WEmpty]; (split; [apply W; reflexivity|]); intros w' Hw; apply W in Hw; destruct w'; cbn in Hw; congruence.
Qed.
(** Refuted: the facets that are not cut but have a piece of the unfitted boundary are missing from all the lists. *)
Theorem C126_interior_refuted : forall argsort g p m D n_local, sorts argsort -> domain_on g D m n_local -> facets_on g p m -> range_begin p = 0%nat ->
  forall x, mesh_facet p Interior x -> on_facet g m (has_unfitted_boundary D) x -> ~ on_facet g m (is_cut_facet D) x ->
  wanted g p m D WEmpty false x /\ forall w, exists l s, get_which argsort p m D w false no_caches = Ret (l, s) /\ ~ In x l.
Proof.
  intros argsort g p m D n_local Ha HD HP R0 x Hx U C. split; [cbn; auto|]. destruct (facet_kind_on argsort g p m D n_local Ha HD HP Interior x Hx) as (st & K1 & K2 & K3 & K4 & K5).
  intros w. assert (F : exists l s, get_which argsort p m D w false no_caches = Ret (l, s) /\ fresh argsort p m D w false = Ret l).
  { destruct w.
    - destruct (get_simple argsort g p m D n_local Ha HD HP R0 WCut false false no_caches) as (l & s & E & _ & F); [reflexivity|apply inv_none|]. destruct F as [F|(_ & F)]; [eauto|discriminate F].
    - destruct (get_simple argsort g p m D n_local Ha HD HP R0 WFull false false no_caches) as (l & s & E & _ & F); [reflexivity|apply inv_none|]. destruct F as [F|(_ & F)]; [eauto|discriminate F].
    - destruct (get_empty_int argsort g p m D n_local Ha HD HP R0 false no_caches) as (l & s & E & F & _); [apply inv_none|]. eauto. }
  destruct F as (l & s & E & F). exists l, s. split; auto. destruct (fresh_ok argsort g p m D n_local Ha HD HP R0 w false) as (l' & E' & _ & I). assert (l = l') by congruence. subst l'. rewrite I.
  rewrite K3 in C. rewrite K5 in U. destruct w; cbn [listed wanted]; rewrite ?K1, ?K2, ?K3; intros (_ & Q); destruct st; cbn in *; congruence.
Qed.
(** Proved: the cut and the full facets are right; the empty ones are those the C++ object calls empty. *)
Theorem C126_interior_partial : forall argsort g p m D n_local, sorts argsort -> domain_on g D m n_local -> facets_on g p m -> range_begin p = 0%nat ->
  forall w, exists l s, get_which argsort p m D w false no_caches = Ret (l, s) /\ NoDup l
    /\ (w <> WEmpty -> forall x, In x l <-> wanted g p m D w false x) /\ (w = WEmpty -> forall x, In x l <-> mesh_facet p Interior x /\ on_facet g m (is_empty_facet D) x).
Proof.
  intros argsort g p m D n_local Ha HD HP R0 w.
  assert (F : exists l s, get_which argsort p m D w false no_caches = Ret (l, s) /\ fresh argsort p m D w false = Ret l).
  { destruct w.
    - destruct (get_simple argsort g p m D n_local Ha HD HP R0 WCut false false no_caches) as (l & s & E & _ & F); [reflexivity|apply inv_none|]. destruct F as [F|(_ & F)]; [eauto|discriminate F].
    - destruct (get_simple argsort g p m D n_local Ha HD HP R0 WFull false false no_caches) as (l & s & E & _ & F); [reflexivity|apply inv_none|]. destruct F as [F|(_ & F)]; [eauto|discriminate F].
    - destruct (get_empty_int argsort g p m D n_local Ha HD HP R0 false no_caches) as (l & s & E & F & _); [apply inv_none|]. eauto. }
  destruct F as (l & s & E & F). exists l, s. split; auto. destruct (fresh_ok argsort g p m D n_local Ha HD HP R0 w false) as (l' & E' & N & I). assert (l = l') by congruence. subst l'. split; auto. split.
  - intros NW x. rewrite I. destruct w; [reflexivity|reflexivity|congruence].
  - intros -> x. apply I.
Qed.
Print Assumptions C126_exterior_lists.
Print Assumptions C126_interior_documented.
Print Assumptions C126_interior_refuted.
Print Assumptions C126_interior_partial.

(** C127: the lists do not depend on the calls made before. Refuted: asking for the empty facets of interior integrals puts the missing facets
    among the cut ones. *)
Theorem C127_order_refuted : forall argsort g p m D n_local, sorts argsort -> domain_on g D m n_local -> facets_on g p m -> range_begin p = 0%nat ->
  forall x, mesh_facet p Interior x -> on_facet g m (has_unfitted_boundary D) x -> ~ on_facet g m (is_cut_facet D) x ->
  exists l1 l2 l3, run_getters argsort p m D [(WEmpty, false); (WCut, false)] no_caches = Ret [l1; l2] /\ run_getters argsort p m D [(WCut, false)] no_caches = Ret [l3] /\ In x l2 /\ ~ In x l3.
Proof.
  intros argsort g p m D n_local Ha HD HP R0 x Hx U C. destruct (get_empty_int argsort g p m D n_local Ha HD HP R0 false no_caches (inv_none _ _ _ _)) as (l & s' & E & _ & _ & _ & H). destruct (H eq_refl x Hx U C) as (l' & C' & I').
  destruct (C126_interior_refuted argsort g p m D n_local Ha HD HP R0 x Hx U C) as (_ & F). destruct (F WCut) as (l3 & s3 & E3 & N3). exists l, l', l3.
  cbn [run_getters fst snd]. rewrite E. cbn [bind fst snd]. rewrite E3. cbn [get_which]. unfold cut_int. rewrite C'. cbn. auto.
Qed.
(** Proved: any sequence of calls gives the lists a new object would give, but for the cut facets of interior integrals after the empty ones
    when there are such facets. *)
Theorem C127_order_partial : forall argsort g p m D n_local, sorts argsort -> domain_on g D m n_local -> facets_on g p m -> range_begin p = 0%nat ->
  forall calls, exists results, run_getters argsort p m D calls no_caches = Ret results /\ length results = length calls /\
  forall k w e, nth_error calls k = Some (w, e) ->
    (w = WCut -> e = false -> (exists j, (j < k)%nat /\ nth_error calls j = Some (WEmpty, false)) -> forall x, mesh_facet p Interior x -> on_facet g m (has_unfitted_boundary D) x -> on_facet g m (is_cut_facet D) x) ->
    exists s, get_which argsort p m D w e no_caches = Ret (nth k results [], s).
Proof.
  intros argsort g p m D n_local Ha HD HP R0 calls. destruct (run_ok argsort g p m D n_local Ha HD HP R0 calls false no_caches (inv_none _ _ _ _)) as (rs & E & L & H). exists rs. split; auto. split; auto.
  intros k w e Ek Hk. assert (F : fresh argsort p m D w e = Ret (nth k rs [])).
  { destruct (H k _ Ek) as [F|(Eo & [F|(F & j)])]; auto; [discriminate F|]. injection Eo as -> ->. destruct F. intros (x & A & B & Cx). apply Cx. eapply Hk; eauto. }
  destruct (is_ei w e) eqn:EI.
  - destruct w, e; try discriminate EI. destruct (get_empty_int argsort g p m D n_local Ha HD HP R0 false no_caches (inv_none _ _ _ _)) as (l & s' & E1 & F1 & _). exists s'. assert (l = nth k rs []) as <- by congruence. auto.
  - destruct (get_simple argsort g p m D n_local Ha HD HP R0 w e false no_caches EI (inv_none _ _ _ _)) as (l & s' & E1 & _ & F1). exists s'. destruct F1 as [F1|(_ & F1)]; [|discriminate F1]. assert (l = nth k rs []) as <- by congruence. auto.
Qed.
Print Assumptions C127_order_refuted.
Print Assumptions C127_order_partial.

(** A case: the grid of 2x1 cells, the interface on the facet between them (only the first cell is in the domain); DOLFINx numbers the cells the other
    way round. *)
Definition two_cells : process := {| topo := {| cell_facets := [[0; 1; 2; 3]; [4; 5; 1; 6]]%nat; facet_cells := [[0]; [0; 1]; [0]; [0]; [1]; [1]; [1]]%nat |}; range_begin := 0; range_end := 7; exterior := [0; 2; 3; 4; 5; 6]%nat |}.
Definition two_mesh : mesh := {| original_cell_index := [1; 0]; active_cells := None; input_global_indices := []; merged_nodes_map := [] |}.
Lemma two_topology : mesh_process two_cells.
Proof.
  split; [split|].
  - intros f cs E. assert (B : (f < 7)%nat) by (apply (proj1 (nth_error_Some (facet_cells (topo two_cells)) f)); congruence).
    assert (X : forall c, In c cs <-> exists k, is_facet (topo two_cells) f c k).
    { intros c. split.
      - intros H. do 7 (destruct f as [|f]; [cbn in E; injection E as <-; cbn in H; repeat (destruct H as [<-|H]; [first [exists 0%nat; eexists; split; reflexivity|exists 1%nat; eexists; split; reflexivity|exists 2%nat; eexists; split; reflexivity|exists 3%nat; eexists; split; reflexivity]|]); destruct H|]); lia.
      - intros (k & fs & E1 & E2). do 2 (destruct c as [|c]; [cbn in E1; injection E1 as <-; do 4 (destruct k as [|k]; [cbn in E2; injection E2 as <-; cbn in E; injection E as <-; cbn; auto|]); destruct k; discriminate E2|]); destruct c; discriminate E1. }
    do 7 (destruct f as [|f]; [cbn in E; injection E as <-; split; [repeat (constructor; [cbn; lia|]); constructor|split; [cbn; lia|exact X]]|]). lia.
  - intros c fs E. do 2 (destruct c as [|c]; [cbn in E; injection E as <-; repeat (constructor; [cbn; lia|]); constructor|]); destruct c; discriminate E.
  - split; [cbn; lia|]. split; [cbn; lia|]. split; [cbn; repeat (constructor; [cbn; lia|]); constructor|]. intros f Hf. unfold owned. cbn in *. lia.
Qed.
Example C126_case : exists g D, domain_on g D two_mesh 2 /\ facets_on g two_cells two_mesh /\ range_begin two_cells = 0%nat
  /\ mesh_facet two_cells Interior (1, 2)%nat /\ on_facet g two_mesh (has_unfitted_boundary D) (1, 2)%nat /\ ~ on_facet g two_mesh (is_cut_facet D) (1, 2)%nat.
Proof.
  destruct demo_usable as (g & Hu & Hn & Hb & H0 & H1).
  set (sign := fun (_ : nat) (_ : bbox) => Sund). set (ccell := fun b : bbox => if M_Real.Rltb (nth 0 (bmax b) 0%R) (3 / 2)%R then Tfull_unf else Tempty).
  set (cfacet := fun (_ : M_TensorIndex.range) (f : nat) (c : tmpstatus) => match c with Tfull_unf => if (f =? 1)%nat then Ffull_unf else Ffull | _ => Fempty end).
  destruct (build_domain_ok g sign ccell cfacet (fun m => m) Hu map_order_id) as (D & s & E & _).
  assert (HB : built g sign ccell cfacet D s) by (split; [auto|]; exists (fun m => m); split; [apply map_order_id|exact E]).
  assert (Hid : cell_id g 0) by (unfold cell_id; lia). assert (Hf : facet_id g 1) by (unfold facet_id; lia).
  assert (EV : exists v, fm_find (d_fm D) 0 = Some v /\ nth 1 v Ffull = Ffull_unf).
  { destruct (C16_every_cell _ _ _ _ _ _ HB 0 Hid) as (st & h & CR & _). inversion CR as [k b lo hi E1 E2 E3 EE|k b lo hi E1 E2 E3 EE|k lo hi tid st' e E1 E2 E3 c Hi]; subst; try discriminate.
    rewrite H0 in E1. injection E1 as <- <-. destruct Hi as (_ & Hi). unfold c in Hi.
    assert (EC : ccell (mk_box [0%R; 0%R] [1%R; 1%R]) = Tfull_unf). { unfold ccell. cbn [bmax nth]. destruct (L_Real.Rltb_spec 1 (3 / 2)); auto. lra. }
    rewrite EC in Hi. rewrite Hb in Hi. rewrite Hi. cbn. eexists. split; reflexivity. }
  destruct EV as (v & Ev & Nv). destruct (built_grid _ _ _ _ _ _ HB) as (EG & _).
  assert (Lv : (1 < length v)%nat). { destruct (Nat.lt_ge_cases 1 (length v)); auto. rewrite nth_overflow in Nv by auto. discriminate. }
  assert (Q : forall st, facet_query D st (Ret false) 0 1 = Ret (st Ffull_unf)).
  { intros st. unfold facet_query, nf. rewrite EG, Hb. cbn [assert_ andb]. rewrite Ev. rewrite (L_Real.at_ok _ _ Ffull) by lia. change (Z.to_nat 1) with 1%nat. rewrite Nv. reflexivity. }
  assert (OF : forall st, on_facet g two_mesh (facet_query D st (Ret false)) (1, 2)%nat <-> st Ffull_unf = true).
  { intros st. unfold on_facet. rewrite Hb. split.
    - intros (c & f & (_ & O) & Bf & LF & QF). cbn in O. subst c. apply local_facet_tab in LF; cbn [snd] in *; try lia. cbn in LF. subst f. cbn in QF. rewrite Q in QF. congruence.
    - intros T. exists 0, 1%nat. split; [split; cbn; [lia|auto]|]. split; [lia|]. split; [apply local_facet_tab; cbn; lia|]. cbn [Z.of_nat]. rewrite Q. congruence. }
  exists g, D. split; [|split; [|split; [reflexivity|split]]].
  - split; [do 4 eexists; exact HB|]. split; [|cbn; lia]. rewrite Hn. split; cbn; [repeat (constructor; [cbn; lia|]); constructor|]. intros i [<-|[<-|[]]]; lia.
  - split; [lia|]. split; [apply two_topology|]. split; [reflexivity|]. split; [rewrite Hb; intros fs [<-|[<-|[]]]; reflexivity|]. intros f Hf'. cbn in Hf'. repeat (destruct Hf' as [<-|Hf']; [eexists; reflexivity|]). destruct Hf'.
  - exists 1%nat. split; [eexists; split; reflexivity|]. split; [unfold owned; cbn; lia|]. cbn. lia.
  - split; [apply OF; reflexivity|]. intros X. apply OF in X. discriminate X.
Qed.
