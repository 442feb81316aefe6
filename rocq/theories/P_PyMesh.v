(** C117: numberings of cells and nodes of a Mesh. C118: merging of coincident nodes. *)
From Coq Require Import List Arith Bool ZArith Lia Permutation Sorting.Sorted Relations.
From Verif Require Import M_PyBase M_PyMesh S_PyMesh L_PyNodes L_PyTp L_PyFacets L_PyMesh.
Import ListNotations.
Local Open Scope Z_scope.

Lemma valid_ids (l ids : list Z) : (forall i, In i ids -> 0 <= i < Z.of_nat (length l)) -> forallb (fun i => (i <? Z.of_nat (length l)) && (0 <=? i)) ids = true.
Proof. intros H. apply forallb_forall. intros i Hi. specialize (H i Hi). apply andb_true_iff. split; [apply Z.ltb_lt|apply Z.leb_le]; lia. Qed.
Lemma invalid_ids (l ids : list Z) i : In i ids -> ~ 0 <= i < Z.of_nat (length l) -> forallb (fun i => (i <? Z.of_nat (length l)) && (0 <=? i)) ids = false.
Proof. intros I H. destruct (forallb _ ids) eqn:E; auto. exfalso. rewrite forallb_forall in E. specialize (E i I). apply andb_true_iff in E. destruct E as (E1 & E2). apply Z.ltb_lt in E1. apply Z.leb_le in E2. lia. Qed.
Lemma f2_positions l vs rs : Forall2 (position l) vs rs -> forall k, (k < length vs)%nat -> position l (nth k vs 0) (nth k rs 0).
Proof. induction 1 as [|v r vs rs P F IH]; intros [|k] H; cbn in *; try lia; auto. apply IH. lia. Qed.
Lemma f2_len_c {A B} (R : A -> B -> Prop) l l' : Forall2 R l l' -> length l = length l'.
Proof. induction 1; cbn; auto. Qed.
(** C117 (cells): get_original_cell_ids gives the original id of local cells, and get_DOLFINx_local_cell_ids inverts it, giving -1 exactly for the
    cells that are not in the process (or not active). *)
Theorem C117_cells_partial : forall argsort m n, sorts argsort -> cells_of_process m n -> original_cell_index m <> [] ->
  (forall ids, (forall i, In i ids -> 0 <= i < Z.of_nat (length (original_cell_index m))) ->
     exists orig, get_original_cell_ids m ids = Ret orig /\ Forall2 (original_of m) ids orig /\ get_DOLFINx_local_cell_ids argsort m orig = Ret ids)
  /\ (forall orig, exists ids, get_DOLFINx_local_cell_ids argsort m orig = Ret ids
        /\ Forall2 (fun c i => original_of m i c \/ (i = -1 /\ forall k, ~ original_of m k c)) orig ids)
  /\ (forall ids i, In i ids -> ~ 0 <= i < Z.of_nat (length (original_cell_index m)) -> get_original_cell_ids m ids = Abort).
Proof.
  intros argsort m n HS (ND & HA) NE.
  assert (Main : forall orig, exists ids, get_DOLFINx_local_cell_ids argsort m orig = Ret ids
        /\ Forall2 (fun c i => original_of m i c \/ (i = -1 /\ forall k, ~ original_of m k c)) orig ids).
  { intros orig. unfold get_DOLFINx_local_cell_ids, original_of in *. destruct (active_cells m) as [a|].
    - destruct HA as (Na & Ra & Ia). assert (Ea : a <> []). { destruct a; [|discriminate]. destruct (original_cell_index m) as [|x l]; [congruence|]. specialize (Ia x ltac:(cbn; auto)). cbn in Ia. lia. }
      destruct (find_ok argsort a orig HS (or_introl Ea)) as (mid & E1 & F1). rewrite E1. cbn [bind]. destruct (find_ok argsort (original_cell_index m) mid HS (or_introl NE)) as (ids & E2 & F2). exists ids. split; auto.
      clear E1 E2. revert ids F2. induction F1 as [|c r orig mid P1 F1 IH]; intros ids F2; inversion F2 as [|r' i ? ids' P2 F2']; subst; constructor; [|apply IH; auto].
      destruct (in_dec Z.eq_dec c a) as [I|N]; [destruct P1 as (P1 & _); destruct (P1 I) as (B1 & V1)|destruct P1 as (_ & P1); specialize (P1 N); subst r].
      + destruct (in_dec Z.eq_dec r (original_cell_index m)) as [Ir|Nr]; [destruct P2 as (P2 & _); destruct (P2 Ir) as (B2 & V2); left|destruct P2 as (_ & P2); specialize (P2 Nr); right].
        * split; auto. rewrite V2. rewrite <- V1. apply nth_indep. lia.
        * split; auto. intros k (Bk & Vk). apply Nr. assert (Ik : In (nth (Z.to_nat k) (original_cell_index m) 0) (original_cell_index m)) by (apply nth_In; lia). pose proof (Ia _ Ik) as Rk.
          assert (Z.to_nat (nth (Z.to_nat k) (original_cell_index m) 0) = Z.to_nat r) by (apply (proj1 (NoDup_nth a 0) Na); try lia; rewrite (nth_indep a 0 (-1)) by lia; congruence).
          replace r with (nth (Z.to_nat k) (original_cell_index m) 0) by lia. auto.
      + right. assert (~ In (-1) (original_cell_index m)) by (intros H; apply Ia in H; lia). destruct P2 as (_ & P2). split; [auto|]. intros k (Bk & Vk). apply N. rewrite <- Vk. apply nth_In. assert (Ik : In (nth (Z.to_nat k) (original_cell_index m) 0) (original_cell_index m)) by (apply nth_In; lia). apply Ia in Ik. lia.
    - cbn [bind]. destruct (find_ok argsort (original_cell_index m) orig HS (or_introl NE)) as (ids & E2 & F2). exists ids. split; auto. clear E2. induction F2 as [|c i orig ids P F2 IH]; constructor; auto.
      destruct (in_dec Z.eq_dec c (original_cell_index m)) as [I|N]; [left; destruct P as (P & _); destruct (P I); auto|right; destruct P as (_ & P); split; auto]. intros k (Bk & Vk). apply N. rewrite <- Vk. apply nth_In. lia. }
  assert (Uni : forall i j c, original_of m i c -> original_of m j c -> i = j).
  { intros i j c (Bi & Vi) (Bj & Vj). assert (Ii : In (nth (Z.to_nat i) (original_cell_index m) 0) (original_cell_index m)) by (apply nth_In; lia). assert (Ij : In (nth (Z.to_nat j) (original_cell_index m) 0) (original_cell_index m)) by (apply nth_In; lia).
    assert (E : nth (Z.to_nat i) (original_cell_index m) 0 = nth (Z.to_nat j) (original_cell_index m) 0).
    { destruct (active_cells m) as [a|]; [|congruence]. destruct HA as (Na & _ & Ia). apply Ia in Ii, Ij. assert (Z.to_nat (nth (Z.to_nat i) (original_cell_index m) 0) = Z.to_nat (nth (Z.to_nat j) (original_cell_index m) 0)) by (apply (proj1 (NoDup_nth a (-1)) Na); try lia; congruence). lia. }
    assert (Z.to_nat i = Z.to_nat j) by (apply (proj1 (NoDup_nth _ 0) ND); auto; lia). lia. }
  split; [|split; [exact Main|]].
  - intros ids V. assert (O : exists orig, get_original_cell_ids m ids = Ret orig /\ Forall2 (original_of m) ids orig).
    { unfold get_original_cell_ids. rewrite valid_ids by auto. cbn [assert_]. rewrite (take_zids_ok _ 0) by auto. cbn [bind]. unfold original_of. destruct (active_cells m) as [a|].
      - destruct HA as (Na & _ & Ia). rewrite (take_zids_ok a (-1)). { eexists. split; [reflexivity|]. rewrite map_map. clear - V. induction ids as [|i ids IH]; cbn; constructor; [split; [apply V; cbn; auto|reflexivity]|apply IH; intros; apply V; cbn; auto]. }
        intros x Hx. apply in_map_iff in Hx. destruct Hx as (i & <- & Hi). apply Ia. apply nth_In. specialize (V i Hi). lia.
      - eexists. split; [reflexivity|]. clear - V. induction ids as [|i ids IH]; cbn; constructor; [split; [apply V; cbn; auto|reflexivity]|apply IH; intros; apply V; cbn; auto]. }
    destruct O as (orig & E & F). exists orig. split; auto. split; auto. destruct (Main orig) as (ids' & E' & F'). rewrite E'. f_equal. clear - F F' Uni. revert ids' F'. induction F as [|i c ids orig O F IH]; intros ids' F'; inversion F' as [|? i' ? ids'' P F'']; subst; auto.
    f_equal; [|apply IH; auto]. destruct P as [P|(_ & P)]; [eapply Uni; eauto|destruct (P i); auto].
  - intros ids i I N. unfold get_original_cell_ids. rewrite (invalid_ids _ _ i) by auto. reflexivity.
Qed.
(** Refuted: on a process without cells the search raises instead of giving -1. *)
Theorem C117_empty_refuted : forall argsort m, sorts argsort -> original_cell_index m = [] -> active_cells m = None -> forall c orig, get_DOLFINx_local_cell_ids argsort m (c :: orig) = Abort.
Proof. intros argsort m HS E A c orig. unfold get_DOLFINx_local_cell_ids. rewrite E, A. cbn [bind]. apply find_empty; auto. Qed.
Lemma nodup_map_z (l : list Z) : (forall c, In c l -> 0 <= c) -> NoDup l -> NoDup (map Z.to_nat l).
Proof. intros H N. induction N as [|x l Nx N IH]; cbn; constructor; [|apply IH; intros; apply H; cbn; auto]. intros I. apply in_map_iff in I. destruct I as (y & E & Hy). apply Nx. replace x with y; auto. pose proof (H x ltac:(cbn; auto)). pose proof (H y ltac:(cbn; auto)). lia. Qed.
Lemma map_nth_seq {A} (d : A) l : map (fun k => nth k l d) (seq 0 (length l)) = l.
Proof. induction l as [|x l IH]; cbn; auto. f_equal. rewrite <- seq_shift, map_map. exact IH. Qed.
Lemma nth_map_z {A B} (f : A -> B) l d d' k : (k < length l)%nat -> nth k (map f l) d' = f (nth k l d).
Proof. revert k. induction l; intros [|k] H; cbn in *; try lia; auto. apply IHl. lia. Qed.
(** The active cells: the mesh has exactly the active cells (all of them when none are given), and the original id of a cell of the process
    is the row of the given connectivity with its nodes, also when the list of active cells is forgotten because it has all the cells. *)
Theorem C117_active_cells : forall (A : Type) (d : A) (conn : list A) active m,
  match active with Some a => NoDup a /\ (forall c, In c a -> 0 <= c < Z.of_nat (length conn)) | None => True end ->
  active_cells m = effective_active active (length conn) ->
  exists conn', dolfinx_conn active conn = Ret conn'
    /\ Permutation conn' (match active with Some a => map (fun c => nth (Z.to_nat c) conn d) a | None => conn end)
    /\ ((forall i, In i (original_cell_index m) -> 0 <= i < Z.of_nat (length conn')) -> NoDup (original_cell_index m) ->
         cells_of_process m (length conn)
         /\ forall i c, original_of m i c -> nth (Z.to_nat (nth (Z.to_nat i) (original_cell_index m) 0)) conn' d = nth (Z.to_nat c) conn d).
Proof.
  intros A d conn active m HA Em. unfold dolfinx_conn. destruct active as [a|]; cbn [effective_active] in *.
  - destruct HA as (Na & Ra). destruct (Nat.eqb_spec (length a) (length conn)) as [El|Nl].
    + exists conn. split; [reflexivity|]. split.
      * assert (P : Permutation (map Z.to_nat a) (seq 0 (length conn))).
        { apply NoDup_Permutation_bis.
          - apply nodup_map_z; auto. intros c Hc. apply Ra in Hc. lia.
          - rewrite map_length, seq_length. lia.
          - intros k Hk. apply in_map_iff in Hk. destruct Hk as (c & <- & Hc). apply Ra in Hc. apply in_seq. lia. }
        apply Permutation_sym. replace (map (fun c => nth (Z.to_nat c) conn d) a) with (map (fun k => nth k conn d) (map Z.to_nat a)) by (rewrite map_map; reflexivity).
        rewrite P. rewrite map_nth_seq. reflexivity.
      * intros H ND. split; [split; [auto|rewrite Em; auto]|]. intros i c (Hi & Hc). rewrite Em in Hc. rewrite Hc. reflexivity.
    + rewrite (take_zids_ok conn d) by auto. eexists. split; [reflexivity|]. split; [reflexivity|]. rewrite map_length. intros H ND. split; [split; [auto|rewrite Em; auto]|].
      intros i c (Hi & Hc). rewrite Em in Hc. assert (In (nth (Z.to_nat i) (original_cell_index m) 0) (original_cell_index m)) as I by (apply nth_In; lia). apply H in I.
      rewrite (nth_map_z _ _ (-1)) by lia. rewrite Hc. reflexivity.
  - exists conn. split; [reflexivity|]. split; [reflexivity|]. intros H ND. split; [split; [auto|rewrite Em; auto]|]. intros i c (Hi & Hc). rewrite Em in Hc. rewrite Hc. reflexivity.
Qed.
(** Three cells, two of them active. *)
Example C117_active_case : dolfinx_conn (Some [2; 0]) [10; 11; 12] = Ret [12; 10] /\ effective_active (Some [2; 0]) 3 = Some [2; 0].
Proof. split; reflexivity. Qed.
(** (nodes) likewise for the nodes: get_original_node_ids gives an original node of the local one (one of those merged into it), and
    get_DOLFINx_local_node_ids the local node of an original one, -1 when it is not in the process. *)
Theorem C117_nodes_partial : forall argsort m n, sorts argsort -> nodes_of_process m n -> input_global_indices m <> [] ->
  (forall ids, (forall i, In i ids -> 0 <= i < Z.of_nat (length (input_global_indices m))) ->
     exists orig, get_original_node_ids argsort m ids = Ret orig
       /\ Forall2 (fun i c => 0 <= c < Z.of_nat n /\ new_node m c = nth (Z.to_nat i) (input_global_indices m) 0) ids orig
       /\ get_DOLFINx_local_node_ids argsort m orig = Ret ids)
  /\ (forall orig, (forall c, In c orig -> 0 <= c < Z.of_nat n) -> exists ids, get_DOLFINx_local_node_ids argsort m orig = Ret ids
        /\ Forall2 (fun c i => position (input_global_indices m) (new_node m c) i) orig ids).
Proof.
  intros argsort m n HS (ND & HM) NE.
  assert (Main : forall orig, (forall c, In c orig -> 0 <= c < Z.of_nat n) -> exists ids, get_DOLFINx_local_node_ids argsort m orig = Ret ids
        /\ Forall2 (fun c i => position (input_global_indices m) (new_node m c) i) orig ids).
  { intros orig R. unfold get_DOLFINx_local_node_ids, new_node. destruct (merged_nodes_map m) as [|x0 M0].
    - cbn [length Nat.ltb Nat.leb bind]. destruct (find_ok argsort (input_global_indices m) orig HS (or_introl NE)) as (ids & E & F). exists ids. split; auto.
    - destruct HM as (L & P & I). set (M := x0 :: M0) in *. replace (0 <? length M)%nat with true by (symmetry; apply Nat.ltb_lt; cbn; lia). rewrite (take_zids_ok M (-1)) by (rewrite L; auto). cbn [bind].
      destruct (find_ok argsort (input_global_indices m) (map (fun i => nth (Z.to_nat i) M (-1)) orig) HS (or_introl NE)) as (ids & E & F). exists ids. split; auto. clear - F. revert ids F. induction orig as [|c orig IH]; intros ids F; inversion F; subst; constructor; auto. }
  split; [|exact Main]. intros ids V.
  assert (O : exists orig, get_original_node_ids argsort m ids = Ret orig /\ Forall2 (fun i c => 0 <= c < Z.of_nat n /\ new_node m c = nth (Z.to_nat i) (input_global_indices m) 0) ids orig).
  { unfold get_original_node_ids, new_node. rewrite valid_ids by auto. cbn [assert_]. rewrite (take_zids_ok _ 0) by auto. cbn [bind]. destruct (merged_nodes_map m) as [|x0 M0].
    - cbn [length Nat.ltb Nat.leb]. eexists. split; [reflexivity|]. clear - V HM. induction ids as [|i ids IH]; cbn; constructor; [split; [apply HM; apply nth_In; specialize (V i ltac:(cbn; auto)); lia|reflexivity]|apply IH; intros; apply V; cbn; auto].
    - destruct HM as (L & P & I). set (M := x0 :: M0) in *. replace (0 <? length M)%nat with true by (symmetry; apply Nat.ltb_lt; cbn; lia).
      destruct (find_ok argsort M (map (fun i => nth (Z.to_nat i) (input_global_indices m) 0) ids) HS) as (orig & E & F); [left; discriminate|]. exists orig. split; auto. clear - F V I L. revert orig F. induction ids as [|i ids IH]; intros orig F; inversion F as [|? c ? orig' Q F']; subst; constructor; [|apply IH; [intros; apply V; cbn; auto|auto]].
      destruct Q as (Q & _). destruct Q as (B & E). { apply I. apply nth_In. specialize (V i ltac:(cbn; auto)). lia. } split; [lia|]. rewrite <- E. apply nth_indep. lia. }
  destruct O as (orig & E & F). exists orig. split; auto. split; auto. destruct (Main orig) as (ids' & E' & F').
  { clear - F. induction F as [|i c ids orig P F IH]; intros c' []; subst; [apply P|auto]. }
  rewrite E'. f_equal. clear - F F' V ND. revert ids' F'. induction F as [|i c ids orig (_ & P) F IH]; intros ids' F'; inversion F' as [|? i' ? ids'' Q F'']; subst; auto. f_equal; [|apply IH; [intros; apply V; cbn; auto|auto]].
  specialize (V i ltac:(cbn; auto)). rewrite P in Q. apply position_nth in Q; auto; lia.
Qed.
(** Refuted on the processes other than 0 when nodes were merged: four nodes, 1 and 2 merged; the process has the new nodes 1 and 2, that is
    the original nodes 1, 2 and 3, but it finds no local node for the node 3 and takes the original node 2 for the new one. *)
Theorem C117_merged_refuted : forall argsort rank, sorts argsort -> (0 < rank)%nat ->
  get_DOLFINx_local_node_ids argsort (mesh_on_rank rank [1] None [1; 2] [0; 1; 1; 2]) [3; 2] = Ret [-1; 1]
  /\ get_DOLFINx_local_node_ids argsort (mesh_on_rank 0 [1] None [1; 2] [0; 1; 1; 2]) [3; 2] = Ret [1; 0].
Proof.
  intros argsort rank HS Hr. assert (N12 : NoDup [1; 2]) by (repeat constructor; cbn; lia). assert (D12 : [1; 2] <> []) by discriminate. split.
  - unfold get_DOLFINx_local_node_ids, mesh_on_rank. cbn [merged_nodes_map input_global_indices]. replace (rank =? 0)%nat with false by (symmetry; apply Nat.eqb_neq; lia). cbn [length Nat.ltb Nat.leb bind].
    destruct (find_ok argsort [1; 2] [3; 2] HS (or_introl D12)) as (rs & E & F). rewrite E. inversion F as [|? r1 ? t1 P1 F1]; subst. inversion F1 as [|? r2 ? t2 P2 F2]; subst. inversion F2; subst.
    destruct P1 as (_ & P1). rewrite (P1 ltac:(cbn; lia)). apply (position_nth [1; 2] 1%nat) in P2; [|auto|cbn; lia]. subst r2. reflexivity.
  - unfold get_DOLFINx_local_node_ids, mesh_on_rank. cbn [merged_nodes_map input_global_indices Nat.eqb length Nat.ltb Nat.leb]. change (take_zids [0; 1; 1; 2] [3; 2]) with (@Ret (list Z) [2; 1]). cbn [bind].
    destruct (find_ok argsort [1; 2] [2; 1] HS (or_introl D12)) as (rs & E & F). rewrite E. inversion F as [|? r1 ? t1 P1 F1]; subst. inversion F1 as [|? r2 ? t2 P2 F2]; subst. inversion F2; subst.
    apply (position_nth [1; 2] 1%nat) in P1; [|auto|cbn; lia]. apply (position_nth [1; 2] 0%nat) in P2; [|auto|cbn; lia]. subst. reflexivity.
Qed.
Print Assumptions C117_cells_partial.
Print Assumptions C117_active_cells.
Print Assumptions C117_empty_refuted.
Print Assumptions C117_nodes_partial.
Print Assumptions C117_merged_refuted.
(** A sorting function exists (insertion sort). *)
Fixpoint ins_pos (l : list Z) (i : nat) (s : list nat) : list nat := match s with [] => [i] | j :: s' => if nth j l 0 <? nth i l 0 then j :: ins_pos l i s' else i :: s end.
Definition isort (l : list Z) : list nat := fold_right (ins_pos l) [] (seq 0 (length l)).
Lemma isort_sorts : sorts isort.
Proof.
  intros l. unfold isort. assert (Pi : forall i s, Permutation (ins_pos l i s) (i :: s)). { intros i. induction s as [|j s IH]; cbn; auto. destruct (_ <? _); auto. rewrite IH. constructor. }
  split.
  - induction (seq 0 (length l)) as [|i s IH]; cbn; auto. rewrite Pi. auto.
  - induction (seq 0 (length l)) as [|i s IH]; cbn [fold_right map]; [constructor|]. revert IH. generalize (fold_right (ins_pos l) [] s). intros t. induction t as [|j t IHt]; intros S; cbn; [repeat constructor|]. destruct (nth j l 0 <? nth i l 0) eqn:E.
    + apply Z.ltb_lt in E. cbn. inversion S as [|? ? S1 F]; subst. constructor; [auto|]. apply Forall_forall. intros x Hx. apply in_map_iff in Hx. destruct Hx as (k & <- & Hk). apply (Permutation_in _ (Pi i t)) in Hk. destruct Hk as [<-|Hk]; [lia|]. rewrite Forall_forall in F. apply F. apply (in_map (fun i => nth i l 0)). auto.
    + apply Z.ltb_ge in E. cbn. constructor; auto. inversion S as [|? ? S1 F]; subst. constructor; auto. eapply Forall_impl; [|exact F]. cbn. lia.
Qed.
Example C117_case : let m := {| original_cell_index := [2; 0]; active_cells := Some [7; 3; 5]; input_global_indices := [2; 0]; merged_nodes_map := [0; 1; 1; 2] |} in
  cells_of_process m 8 /\ nodes_of_process m 4 /\ get_original_cell_ids m [0; 1] = Ret [5; 7] /\ get_DOLFINx_local_cell_ids isort m [7; 3; 4; 5] = Ret [1; -1; -1; 0]
  /\ get_original_node_ids isort m [0; 1] = Ret [3; 0] /\ get_DOLFINx_local_node_ids isort m [0; 1; 2; 3] = Ret [1; -1; -1; 0].
Proof.
  cbn zeta. split; [|split; [|split; [reflexivity|split; [reflexivity|split; reflexivity]]]].
  - split; [repeat (constructor; [cbn; lia|]); constructor|]. cbn [active_cells original_cell_index]. split; [repeat (constructor; [cbn; lia|]); constructor|]. split; cbn; lia.
  - split; [repeat (constructor; [cbn; lia|]); constructor|]. cbn [merged_nodes_map input_global_indices]. split; [reflexivity|]. split; cbn; lia.
Qed.

Local Close Scope Z_scope.
(** C118: merging terminates; every node goes to a node chained to it by coincident ones, the nodes kept are no coincident pairs, the connectivity
    is renumbered accordingly; and, when coincidence is transitive, two nodes are merged exactly when they are coincident. *)
Theorem C118_merge_partial : forall (A : Type) (d : A) (nodes : list A) conn pairs fuel,
  (forall i j, In (i, j) pairs -> i < j < length nodes) -> (forall c i, In c conn -> In i c -> i < length nodes) -> length nodes * length nodes < fuel ->
  exists new_nodes old_to_new master,
    merge_points fuel nodes conn pairs = Ret (new_nodes, map (map (fun i => nth i old_to_new 0)) conn, old_to_new)
    /\ length old_to_new = length nodes
    /\ (forall i, i < length nodes -> nth i old_to_new 0 < length new_nodes)
    /\ (forall k, k < length new_nodes -> master k < length nodes /\ nth (master k) old_to_new 0 = k /\ nth k new_nodes d = nth (master k) nodes d)
    /\ (forall i, i < length nodes -> chained pairs i (master (nth i old_to_new 0)))
    /\ (forall k k', k < length new_nodes -> k' < length new_nodes -> coincident pairs (master k) (master k') -> k = k')
    /\ ((forall x y z, coincident pairs x y -> coincident pairs y z -> coincident pairs x z) ->
        forall i j, i < length nodes -> j < length nodes -> nth i old_to_new 0 = nth j old_to_new 0 <-> coincident pairs i j).
Proof.
  intros A d nodes conn pairs fuel W Hc Hf. destruct (merge_ok (length nodes) pairs W nodes conn fuel d eq_refl Hf Hc) as (s & o & nn & P & Id & Lo & Eq & Val & Sur & E).
  set (n := length nodes) in *. set (mk := fun k => nth (hd 0 (filter (fun i => nth i o 0 =? k) (seq 0 n))) s 0).
  destruct P as (Ls & As & Bs & Cs). assert (Fix : forall i, i < n -> nth (nth i s 0) s 0 = nth i s 0) by (intros i Hi; rewrite <- (compose_nth n s) by auto; rewrite Id; auto).
  assert (Sn : forall i, i < n -> nth i s 0 < n) by (intros i Hi; specialize (As i Hi); lia).
  assert (Mk : forall i, i < n -> mk (nth i o 0) = nth i s 0).
  { intros i Hi. unfold mk. set (k := nth i o 0). assert (I : In i (filter (fun i => nth i o 0 =? k) (seq 0 n))) by (apply filter_In; split; [apply in_seq; lia|apply Nat.eqb_refl]).
    destruct (filter _ _) as [|j l] eqn:F; [destruct I|]. cbn [hd]. assert (J : In j (filter (fun i => nth i o 0 =? k) (seq 0 n))) by (rewrite F; cbn; auto). apply filter_In in J. destruct J as (J1 & J2). apply in_seq in J1. apply Nat.eqb_eq in J2. apply Eq; auto; lia. }
  assert (Mk' : forall k, k < length nn -> mk k < n /\ nth (mk k) o 0 = k /\ nth (mk k) s 0 = mk k).
  { intros k Hk. destruct (Sur k Hk) as (m & Hm & Fm & Om). pose proof (Mk m Hm) as M. rewrite Om, Fm in M. rewrite M. auto. }
  exists nn, o, mk. split; auto. split; auto. split; [intros i Hi; apply Val; auto|].
  split. { intros k Hk. destruct (Mk' k Hk) as (M1 & M2 & M3). split; auto. split; auto. destruct (Val (mk k) M1) as (_ & V). rewrite M2, M3 in V. auto. }
  split. { intros i Hi. rewrite Mk by auto. auto. }
  assert (Ind : forall k k', k < length nn -> k' < length nn -> coincident pairs (mk k) (mk k') -> k = k').
  { intros k k' Hk Hk' C. destruct (Mk' k Hk) as (M1 & M2 & M3), (Mk' k' Hk') as (M1' & M2' & M3'). destruct C as [C|[C|C]]; [congruence|pose proof (Cs _ _ C); lia|pose proof (Cs _ _ C); lia]. }
  split; auto. intros T i j Hi Hj.
  assert (Ch : forall x y, chained pairs x y -> coincident pairs x y) by (induction 1 as [x y H|x|x y z _ IH1 _ IH2]; [auto|left; auto|eapply T; eauto]).
  assert (Sy : forall x y, coincident pairs x y -> coincident pairs y x) by (unfold coincident; intuition).
  rewrite Eq by auto. split.
  - intros H. apply (T _ (nth i s 0)); [apply Ch; auto|]. rewrite H. apply Sy, Ch. auto.
  - intros H. rewrite <- (Mk i Hi), <- (Mk j Hj). f_equal. apply Ind; [apply Val; auto|apply Val; auto|]. rewrite !Mk by auto. apply (T _ i); [apply Sy, Ch; auto|]. apply (T _ j); auto.
Qed.
(** Refuted without transitivity: of three nodes, the third within the tolerance of the two others, the first and the third stay apart. *)
Theorem C118_coincident_refuted : let pairs := [(0, 2); (1, 2)] in
  exists new conn o, merge_points 10 [0; 8; 4] [[0; 1; 2]] pairs = Ret (new, conn, o) /\ coincident pairs 0 2 /\ nth 0 o 0 <> nth 2 o 0.
Proof. cbn zeta. do 3 eexists. split; [vm_compute; reflexivity|]. split; [right; left; cbn; auto|cbn; lia]. Qed.
Print Assumptions C118_merge_partial.
Print Assumptions C118_coincident_refuted.
Example C118_case : merge_points 17 [10; 20; 10; 20] [[0; 1]; [2; 3]] [(0, 2); (1, 3)] = Ret ([10; 20], [[0; 1]; [0; 1]], [0; 1; 0; 1]).
Proof. reflexivity. Qed.
