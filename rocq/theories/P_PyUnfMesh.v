(** C164: an unfitted mesh is the mesh of the nonempty cells, on every process. C165: the arguments of create_unfitted_impl_Cartesian_mesh. *)
From Coq Require Import List Arith Bool Lia ZArith Permutation Sorting.Sorted Reals Lra.
From Verif Require Import M_Domain M_Grid S_Domain L_Domain L_DomainQ L_DomainT L_Grid P_Domain.
From Verif Require Import M_PyBase M_PyNodes M_PyFacets M_PyTp M_PyMesh M_PyTpMesh M_PyUnf S_PyTp S_PyTpMesh S_PyMesh S_PyFacets S_PyUnf L_PyNodes L_PyFacets L_PyMesh P_PyMesh L_PyTp L_PyTpMesh2 P_PyUnf M_PyUnfMesh S_PyUnfMesh L_PyUnfMesh.
From Verif Require L_Reparam2 L_General4.
Import ListNotations. Local Close Scope R_scope.
Local Open Scope Z_scope.

Lemma grid_dims g sign ccell cfacet D s : built g sign ccell cfacet D s ->
  let n := map Z.to_nat (num_cells_dir g) in length n = length (breaks g) /\ Forall (fun k => (1 <= k)%nat) n /\ Z.of_nat (fold_right Nat.mul 1%nat n) = num_cells g /\ 0 < num_cells g.
Proof.
  intros ((( brks & Hne & HG) & _) & _) n. destruct (make_grid_facts _ _ Hne HG) as (GF & _).
  assert (P := size_pos g GF). assert (Len := size_length g GF). split; [unfold n; rewrite map_length; exact Len|]. unfold num_cells, n. clear - P.
  induction P as [|x l Hx P (IH1 & IH2 & IH3)]; [split; [constructor|cbn; lia]|]. cbn [map fold_right size_prod]. split; [constructor; [lia|auto]|]. rewrite Nat2Z.inj_mul, IH2, Z2Nat.id by lia. split; [reflexivity|nia].
Qed.

(** The active cells: those of a cell that is not empty, or all. *)
Lemma constructor_active_ok sort g sign ccell cfacet D s exclude : sorting sort -> built g sign ccell cfacet D s ->
  exists active, constructor_active sort exclude D = Ret active /\ act_ok active (Z.to_nat (num_cells g))
    /\ (active = None <-> exclude = false)
    /\ forall c, In c (act active (Z.to_nat (num_cells g))) <-> cell_id g c /\ (exclude = true -> is_empty_cell D c = Ret false).
Proof.
  intros Hs HB. destruct (grid_dims _ _ _ _ _ _ HB) as (_ & _ & _ & Hpos). unfold constructor_active. destruct exclude.
  2:{ exists None. split; [reflexivity|]. split; [apply act_none|]. split; [tauto|]. intros c. cbn [act]. rewrite in_zseq. unfold cell_id. split; [intros H; split; [lia|discriminate]|intros (H & _); lia]. }
  destruct (C13_cells_partition _ _ _ _ _ _ HB) as (F & E & C & EF & EE & EC & SF & SE & SC & Cov & Dis & _).
  rewrite EF, EC. cbn [bind]. exists (Some (sort (F ++ C))). split; [reflexivity|]. destruct (Hs (F ++ C)) as (P & S).
  assert (N : NoDup (F ++ C)).
  { apply L_General4.nodup_append; [apply sorted_lt_nodup; auto|apply sorted_lt_nodup; auto|]. intros x I1 I2. destruct (Dis x) as (_ & X & _). auto. }
  assert (I : forall c, In c (sort (F ++ C)) <-> In c F \/ In c C).
  { intros c. rewrite <- in_app_iff. split; apply Permutation_in; auto. symmetry; auto. }
  assert (J : forall c, In c (sort (F ++ C)) <-> cell_id g c /\ (true = true -> is_empty_cell D c = Ret false)).
  { intros c. rewrite I. split.
    - intros H. assert (Hc : cell_id g c) by (apply Cov; tauto). split; auto. intros _.
      destruct (C14_queries_agree _ _ _ _ _ _ HB c F E C Hc EF EE EC) as (f & e & k & _ & Qe & _ & _ & Ie & _). rewrite Qe. f_equal.
      destruct e; auto. exfalso. destruct (Dis c) as (X & _ & Y). destruct Ie as (Ie & _). specialize (Ie eq_refl). destruct H; tauto.
    - intros (Hc & He). destruct (C14_queries_agree _ _ _ _ _ _ HB c F E C Hc EF EE EC) as (f & e & k & _ & Qe & _ & _ & Ie & _). specialize (He eq_refl).
      apply Cov in Hc. destruct Hc as [H|[H|H]]; auto. exfalso. apply Ie in H. congruence. }
  split; [split; cbn [act]|split; [split; discriminate|exact J]].
  - apply sorted_le_lt; auto. apply (Permutation_NoDup (l := F ++ C)); auto. symmetry; auto.
  - intros c Hc. apply J in Hc. destruct Hc as (Hc & _). unfold cell_id in Hc. lia.
Qed.

(** C164: every process constructs its mesh; the process 0 hands DOLFINx the rows (of nodes) of exactly the cells that are not empty (of all the
    cells with exclude_empty_cells = False), in increasing order, and the others none; however the cells are distributed, every process holds an
    unfitted domain of its cells: the original id of a local cell is that of the cell with its row of nodes, no local cell is empty, and every
    cell that is not empty is owned by exactly one process, once. *)
Theorem C164_unfitted_mesh : forall sort argsort g sign ccell cfacet D s degree exclude, sorting sort -> sorts argsort -> built g sign ccell cfacet D s ->
  (1 <= degree)%nat -> (2 <= length (breaks g) <= 3)%nat ->
  let wanted c := cell_id g c /\ (exclude = true -> is_empty_cell D c = Ret false) in
  exists conn ids, tensor_prod_conn (length (breaks g)) degree (map Z.to_nat (num_cells_dir g)) = Ret conn /\ Z.of_nat (length conn) = num_cells g
    /\ StronglySorted Z.lt ids /\ (forall c, In c ids <-> wanted c)
    /\ forall parts, distribution (length ids) parts ->
       forall nodes : nat -> list Z, exists meshes, length meshes = length parts
         /\ (forall r cells owned, nth_error parts r = Some (cells, owned) -> exists m, nth_error meshes r = Some m
              /\ unfitted_mesh_on_rank sort r degree exclude g D cells (nodes r) = Ret (if (r =? 0)%nat then map (fun c => nth (Z.to_nat c) conn []) ids else [], m)
              /\ domain_on g D m owned
              /\ original_cell_index m = cells
              /\ (forall i c, original_of m i c -> wanted c /\ nth (Z.to_nat (nth (Z.to_nat i) cells 0)) (map (fun c => nth (Z.to_nat c) conn []) ids) [] = nth (Z.to_nat c) conn [])
              /\ (exclude = true -> py_get_cells sort argsort m owned D Cempty = Ret []))
         /\ forall c, wanted c -> exists r i, owner meshes parts c r i /\ forall r' i', owner meshes parts c r' i' -> r' = r /\ i' = i.
Proof.
  intros sort argsort g sign ccell cfacet D s degree exclude Hs Ha HB Hdeg Hdim wanted.
  destruct (grid_dims _ _ _ _ _ _ HB) as (Ln & Pn & Vn & Hpos). set (n := map Z.to_nat (num_cells_dir g)) in *.
  destruct (conn_ok degree n ltac:(lia) Hdeg Pn) as (conn & EC & LC & _). rewrite Ln in EC. exists conn.
  destruct (constructor_active_ok sort g _ _ _ D s exclude Hs HB) as (active & EA & OK & _ & IA). set (N := Z.to_nat (num_cells g)) in *.
  assert (LN : length conn = N) by (rewrite LC; unfold nprod, N; lia).
  set (ids := act active N) in *. exists ids. split; [exact EC|]. split; [lia|]. split; [apply OK|]. split; [exact IA|].
  intros parts (Hp & Hown) nodes.
  set (rows0 := map (fun c => nth (Z.to_nat c) conn []) ids).
  set (mk := fun r (p : list Z * nat) => {| original_cell_index := fst p; active_cells := effective_active active (if (r =? 0)%nat then N else 0%nat); input_global_indices := nodes r; merged_nodes_map := [] |}).
  set (meshes := map (fun r => mk r (nth r parts ([], 0%nat))) (seq 0 (length parts))).
  exists meshes. assert (LM : length meshes = length parts) by (unfold meshes; rewrite map_length, seq_length; auto). split; [exact LM|].
  assert (Mr : forall r cells owned, nth_error parts r = Some (cells, owned) -> nth_error meshes r = Some (mk r (cells, owned))).
  { intros r cells owned E. assert (r < length parts)%nat by (apply nth_error_Some; congruence). unfold meshes. rewrite (map_nth_error _ r (seq 0 (length parts)) (d := r)).
    - rewrite (nth_error_nth _ _ ([], 0%nat) E). reflexivity.
    - rewrite (nth_error_nth' _ 0%nat) by (rewrite seq_length; auto). rewrite seq_nth; auto. }
  assert (Rng : forall r cells owned, nth_error parts r = Some (cells, owned) -> NoDup cells /\ (owned <= length cells)%nat /\ forall i, In i cells -> 0 <= i < Z.of_nat (length ids)).
  { intros r cells owned E. apply Hp. eapply nth_error_In; eauto. }
  assert (Or : forall r cells owned, nth_error parts r = Some (cells, owned) -> forall i c, original_of (mk r (cells, owned)) i c <-> 0 <= i < Z.of_nat (length cells) /\ nth (Z.to_nat (nth (Z.to_nat i) cells 0)) ids (-1) = c).
  { intros r cells owned E. destruct (Rng _ _ _ E) as (_ & _ & R). apply (effective_same active N cells OK R). destruct (r =? 0)%nat; auto. }
  assert (Dom : forall r cells owned, nth_error parts r = Some (cells, owned) -> domain_on g D (mk r (cells, owned)) owned).
  { intros r cells owned E. destruct (Rng _ _ _ E) as (R1 & R2 & R3). split; [exists sign, ccell, cfacet, s; exact HB|]. split; [|exact R2].
    apply (process_cells active N cells); auto. destruct (r =? 0)%nat; auto. }
  assert (Orow : forall r cells owned, nth_error parts r = Some (cells, owned) -> forall i c, original_of (mk r (cells, owned)) i c -> wanted c /\ nth (Z.to_nat (nth (Z.to_nat i) cells 0)) rows0 [] = nth (Z.to_nat c) conn []).
  { intros r cells owned E i c H. apply (Or _ _ _ E) in H. destruct H as (Hi & Hc). destruct (Rng _ _ _ E) as (_ & _ & R3).
    assert (I : 0 <= nth (Z.to_nat i) cells 0 < Z.of_nat (length ids)) by (apply R3; apply nth_In; lia). split.
    - apply IA. fold ids. rewrite <- Hc. apply nth_In. lia.
    - unfold rows0. rewrite (nth_map_z _ _ (-1)) by lia. rewrite Hc. reflexivity. }
  split.
  - intros r cells owned E. exists (mk r (cells, owned)). split; [apply Mr; auto|]. split; [|split; [apply (Dom _ _ _ E)|split; [reflexivity|split; [apply (Orow _ _ _ E)|]]]].
    + unfold unfitted_mesh_on_rank, conn_on_rank, create_on_rank. fold n. rewrite EA. cbn [bind]. unfold mk. destruct (Nat.eqb_spec r 0) as [->|Nr].
      * rewrite EC. cbn [bind]. assert (OK' : act_ok active (length conn)) by (rewrite LN; exact OK). rewrite (handed_rows [] conn active OK'), LN. reflexivity.
      * reflexivity.
    + intros He. destruct (C124_cells sort argsort g D _ owned Hs Ha (Dom _ _ _ E)) as (cut & full & empty & _ & _ & Ee & _ & _ & (_ & Ie) & _).
      rewrite Ee. f_equal. destruct empty as [|i empty]; auto. exfalso. destruct (proj1 (Ie i) ltac:(cbn; auto)) as (_ & c & O & Q).
      destruct (Orow _ _ _ E _ _ O) as ((_ & W) & _). specialize (W He). congruence.
  - intros c Wc. apply IA in Wc. fold ids in Wc. apply (In_nth _ _ (-1)) in Wc. destruct Wc as (p & Hpl & Hpc).
    assert (NDc : NoDup (concat (map (fun q => firstn (snd q) (fst q)) parts))).
    { apply (Permutation_NoDup (l := map Z.of_nat (seq 0 (length ids)))); [symmetry; exact Hown|]. apply sorted_lt_nodup, sorted_zseq. }
    assert (Ip : In (Z.of_nat p) (concat (map (fun q => firstn (snd q) (fst q)) parts))).
    { apply (Permutation_in (l := map Z.of_nat (seq 0 (length ids)))); [symmetry; exact Hown|]. apply in_zseq. lia. }
    apply in_concat in Ip. destruct Ip as (l & Il & Ip). apply (In_nth_error) in Il. destruct Il as (r & Er). rewrite nth_error_map in Er.
    destruct (nth_error parts r) as [(cells, owned)|] eqn:E; [|discriminate]. cbn in Er. injection Er as <-.
    apply (In_nth _ _ 0) in Ip. destruct Ip as (i & Hi & Vi). destruct (Rng _ _ _ E) as (R1 & R2 & R3).
    rewrite firstn_length in Hi. assert (Hi' : (i < owned)%nat) by lia. rewrite L_Reparam2.nth_firstn_c in Vi by auto.
    exists r, (Z.of_nat i). split.
    + exists (mk r (cells, owned)), cells, owned. split; [apply Mr; auto|]. split; [auto|]. split; [lia|]. apply (Or _ _ _ E). rewrite Nat2Z.id, Vi, Nat2Z.id. split; [lia|auto].
    + intros r' i' (m' & cells' & owned' & Em & E' & Bi & O). rewrite (Mr _ _ _ E') in Em. injection Em as <-. apply (Or _ _ _ E') in O. destruct O as (_ & O). destruct (Rng _ _ _ E') as (R1' & R2' & R3').
      assert (Iq : 0 <= nth (Z.to_nat i') cells' 0 < Z.of_nat (length ids)) by (apply R3'; apply nth_In; lia).
      assert (Eq : nth (Z.to_nat i') cells' 0 = Z.of_nat p).
      { assert (Z.to_nat (nth (Z.to_nat i') cells' 0) = p); [|lia]. apply (proj1 (NoDup_nth ids (-1)) (sorted_lt_nodup _ (proj1 OK))); try lia; try congruence. }
      assert (r' = r).
      { eapply (concat_unique _ NDc r' r _ _ (Z.of_nat p)).
        - rewrite nth_error_map, E'. reflexivity.
        - rewrite nth_error_map, E. reflexivity.
        - rewrite <- Eq. cbn [fst snd]. rewrite <- (L_Reparam2.nth_firstn_c 0 owned' cells' (Z.to_nat i')) by lia. apply nth_In. rewrite firstn_length. lia.
        - cbn [fst snd]. rewrite <- Vi. rewrite <- (L_Reparam2.nth_firstn_c 0 owned cells i) by lia. apply nth_In. rewrite firstn_length. lia. }
      subst r'. split; auto. rewrite E in E'. injection E' as <- <-.
      assert (Z.to_nat i' = i); [|lia]. apply (proj1 (NoDup_nth cells 0) R1); try lia; congruence.
Qed.
Print Assumptions C164_unfitted_mesh.
(** For every oracle there is a domain on a grid of 2 cells, and a distribution over two processes, the second one with ghosts only. *)
Example C164_case : (forall sign ccell cfacet, exists g D s, built g sign ccell cfacet D s /\ num_cells g = 2 /\ length (breaks g) = 2%nat)
  /\ (forall n, distribution n [(map Z.of_nat (seq 0 n), n); (map Z.of_nat (seq 0 n), 0%nat)])
  /\ distribution 3 [([2; 0], 1%nat); ([0; 1], 2%nat)].
Proof.
  split; [exact C13_nonvacuous|]. split.
  - intros n. split.
    + intros cells owned [E|[E|[]]]; injection E as <- <-; (split; [apply sorted_lt_nodup, sorted_zseq|]); (split; [rewrite map_length, seq_length; lia|]); intros i; apply in_zseq.
    + cbn [map concat firstn fst snd]. rewrite !app_nil_r. rewrite firstn_all2; [reflexivity|rewrite map_length, seq_length; lia].
  - split.
    + intros cells owned [E|[E|[]]]; injection E as <- <-; (split; [repeat (constructor; [cbn; lia|]); constructor|]); (split; [cbn; lia|]); cbn; lia.
    + cbn. apply NoDup_Permutation; [repeat (constructor; [cbn; lia|]); constructor|repeat (constructor; [cbn; lia|]); constructor|]. intros x. cbn. lia.
Qed.

(** C165: a Cartesian mesh with given active cells: the original id of every local cell, on every process, is that of the cell with its row of
    nodes. Refuted for the processes other than 0 when all the cells are given, not in increasing order: the process 0 forgets the list, the
    others (which compare its length with that of an empty connectivity) do not. *)
Theorem C165_parallel_refuted : forall (A : Type) (row0 row1 : A) argsort, row0 <> row1 -> sorts argsort ->
  exists m0 m1, create_on_rank 0 (Some [1; 0]) [row0; row1] [1] [] = Ret ([row0; row1], m0) /\ create_on_rank (A := A) 1 (Some [1; 0]) [] [0] [] = Ret ([], m1)
    /\ get_original_cell_ids m0 [0] = Ret [1] /\ get_original_cell_ids m1 [0] = Ret [1]
    /\ get_DOLFINx_local_cell_ids argsort m1 [0] = Ret [-1].
Proof.
  intros A row0 row1 argsort Hne HS. eexists _, _. split; [reflexivity|]. split; [reflexivity|]. split; [reflexivity|]. split; [reflexivity|].
  unfold get_DOLFINx_local_cell_ids. cbn [active_cells effective_active length Nat.eqb original_cell_index].
  destruct (find_ok argsort [1; 0] [0] HS) as (r1 & E1 & F1); [left; discriminate|]. rewrite E1. cbn [bind]. inversion F1 as [|? p1 ? t1 P1 F1']; subst. inversion F1'; subst.
  apply (position_nth [1; 0] 1%nat) in P1; [|repeat constructor; cbn; lia|cbn; lia]. subst p1.
  destruct (find_ok argsort [0] [Z.of_nat 1] HS) as (r2 & E2 & F2); [left; discriminate|]. rewrite E2. inversion F2 as [|? p2 ? t2 P2 F2']; subst. inversion F2'; subst.
  destruct P2 as (_ & P2). rewrite P2; [reflexivity|]. cbn. lia.
Qed.
(** Right on the process 0, when some cell is not active, and when the active cells are given in increasing order. *)
Theorem C165_active_cells_partial : forall (A : Type) (d : A) (conn : list A) a rank, NoDup a -> (forall c, In c a -> 0 <= c < Z.of_nat (length conn)) ->
  rank = 0%nat \/ (length a < length conn)%nat \/ StronglySorted Z.lt a ->
  forall cells nodes cells0 nodes0, exists handed m0 rows m, create_on_rank 0 (Some a) conn cells0 nodes0 = Ret (handed, m0)
    /\ create_on_rank rank (Some a) (if (rank =? 0)%nat then conn else []) cells nodes = Ret (rows, m) /\ (rank <> 0%nat -> rows = [])
    /\ Permutation handed (map (fun c => nth (Z.to_nat c) conn d) a)
    /\ (NoDup cells -> (forall i, In i cells -> 0 <= i < Z.of_nat (length handed)) ->
        cells_of_process m (length conn) /\ forall i c, original_of m i c -> nth (Z.to_nat (nth (Z.to_nat i) cells 0)) handed d = nth (Z.to_nat c) conn d).
Proof.
  intros A d conn a rank Na Ra Hr cells nodes cells0 nodes0.
  set (m' := {| original_cell_index := cells; active_cells := effective_active (Some a) (length conn); input_global_indices := nodes; merged_nodes_map := [] |}).
  destruct (C117_active_cells A d conn (Some a) m' (conj Na Ra) eq_refl) as (handed & EH & PH & HH). cbn [original_cell_index m'] in HH.
  assert (LH : length handed = length a) by (rewrite (Permutation_length PH); apply map_length).
  unfold create_on_rank. cbn [Nat.eqb]. rewrite EH. cbn [bind].
  destruct (Nat.eqb_spec rank 0) as [->|Nr].
  - cbn [Nat.eqb]. rewrite EH. cbn [bind]. exists handed. eexists _, _, _. split; [reflexivity|]. split; [reflexivity|]. split; [congruence|]. split; [exact PH|]. intros Nc Rc. apply HH; auto.
  - exists handed. eexists _, _, _. split; [reflexivity|]. split; [cbn [bind]; reflexivity|]. split; [auto|]. split; [exact PH|]. intros Nc Rc. destruct (HH Rc Nc) as (HC & HO).
    cbn [length]. destruct a as [|x a].
    { cbn [length] in LH. assert (cells = []) as ->. { destruct cells as [|y cells]; auto. specialize (Rc y ltac:(cbn; auto)). lia. }
      split; [split; cbn; [constructor|intros i []]|]. intros i c (Hi & _). cbn in Hi. lia. }
    change (effective_active (Some (x :: a)) 0) with (Some (x :: a)).
    assert (Ci : cells_of_process {| original_cell_index := cells; active_cells := Some (x :: a); input_global_indices := nodes; merged_nodes_map := [] |} (length conn)).
    { split; [exact Nc|]. cbn [active_cells original_cell_index]. split; [auto|]. split; [auto|]. rewrite <- LH. exact Rc. }
    split; [exact Ci|]. intros i c (Hi & Hc). cbn [original_cell_index active_cells] in Hi, Hc.
    apply HO. unfold m', original_of. cbn [original_cell_index active_cells effective_active]. split; [exact Hi|].
    destruct (Nat.eqb_spec (length (x :: a)) (length conn)) as [E|E]; [|exact Hc].
    destruct Hr as [Hr|[Hr|Hr]]; [congruence|lia|]. assert (Es := full_sorted (x :: a) (length conn) Hr Ra E). rewrite Es in Hc.
    assert (I : 0 <= nth (Z.to_nat i) cells 0 < Z.of_nat (length handed)) by (apply Rc; apply nth_In; lia).
    rewrite nth_zseq in Hc by lia. lia.
Qed.
Print Assumptions C165_parallel_refuted.
Print Assumptions C165_active_cells_partial.
Example C165_case : NoDup [2; 0] /\ (length [2; 0] < length [10; 11; 12])%nat /\ exists m, create_on_rank 1 (A := nat) (Some [2; 0]) [] [1] [] = Ret ([], m) /\ get_original_cell_ids m [0] = Ret [0].
Proof. split; [repeat constructor; cbn; lia|]. split; [cbn; lia|]. eexists. split; reflexivity. Qed.
