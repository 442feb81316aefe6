(** C119-C123: tensor-product and Cartesian meshes of the Python layer. *)
From Coq Require Import List Arith Bool Lia ZArith Permutation Sorting.Sorted Reals Lra.
From Verif Require Import M_PyBase M_PyNodes M_PyTp M_PyMesh M_PyTpMesh S_PyTp S_PyMesh S_PyTpMesh L_PyNodes L_PyTp L_PyTp2 L_PyTp3 L_PyFacets L_PyMesh L_PyTpMesh L_PyTpMesh2 L_PyTpMesh3 P_PyMesh.
Import ListNotations.
Local Close Scope R_scope. Local Close Scope Z_scope. Local Open Scope nat_scope.

(** C119: for every dimension, degree and numbers of cells, the connectivity has one row per cell, in lexicographical order; entry k of the row of
    cell c is the number of the grid point of the k-th node (in basix' order) of that cell. Hence two cells share a node number exactly where their
    nodes are the same grid point, and every grid point is a node. *)
Theorem C119_connectivity : forall degree n, 1 <= length n <= 3 -> 1 <= degree -> Forall (fun k => 1 <= k) n ->
  let dim := length n in let N := (degree + 1) ^ dim in let order := basix_order degree dim in let num := flat (point_dims degree n) in
  exists conn, tensor_prod_conn dim degree n = Ret conn /\ length conn = fold_right Nat.mul 1 n /\ (forall r, In r conn -> length r = N)
   /\ (forall c k, index n c -> k < N -> nth k (nth (flat n c) conn []) 0 = num (point_of degree c (nth k order [])))
   /\ (forall c k c' k', index n c -> k < N -> index n c' -> k' < N ->
         (nth k (nth (flat n c) conn []) 0 = nth k' (nth (flat n c') conn []) 0 <-> point_of degree c (nth k order []) = point_of degree c' (nth k' order [])))
   /\ (forall p, p < fold_right Nat.mul 1 (point_dims degree n) <-> exists c k, index n c /\ k < N /\ nth k (nth (flat n c) conn []) 0 = p).
Proof.
  intros degree n Hd H P dim N order num. destruct (conn_ok degree n Hd H P) as (conn & E & L & R & V). fold dim N order num in E, R, V.
  assert (BL : length order = N) by (apply basix_len; auto).
  assert (BI : forall c k, index n c -> k < N -> index (point_dims degree n) (point_of degree c (nth k order []))).
  { intros c k Ic Hk. apply point_index; auto. apply basix_index; auto. apply nth_In. change (k < length order). rewrite BL. auto. }
  exists conn. split; [auto|]. split; [auto|]. split; [auto|]. split; [auto|]. split.
  - intros c k c' k' Ic Hk Ic' Hk'. rewrite !V by auto. split; [|congruence]. apply flat_inj; auto.
  - intros p. split.
    + intros Hp. destruct (flat_exists (point_dims degree n) p) as (q & Iq & <-); auto. { unfold point_dims. apply Forall_forall. intros x Hx. apply in_map_iff in Hx. destruct Hx as (y & <- & _). lia. }
      destruct (points_covered degree n q H P Iq) as (c & t & Ic & It & <-).
      assert (Ht : In (flat (repeat (degree + 1) dim) t) (map (flat (repeat (degree + 1) dim)) order)).
      { destruct (dlf_perm dim degree Hd H) as (l & El & Pl). rewrite (dlf_order dim degree Hd H) in El. injection El as El. fold order in El. rewrite El. apply (Permutation_in _ (Permutation_sym Pl)). apply in_seq. split; [lia|]. cbn [Nat.add]. rewrite <- repeat_prod. apply flat_lt. auto. }
      apply in_map_iff in Ht. destruct Ht as (t' & Et & It'). apply flat_inj in Et; [|apply basix_index; auto|auto]. subst t'. apply (In_nth _ _ []) in It'. destruct It' as (k & Hk & Ek).
      rewrite BL in Hk. exists c, k. split; [auto|]. split; [auto|]. rewrite V by auto. rewrite Ek. reflexivity.
    + intros (c & k & Ic & Hk & <-). rewrite V by auto. apply flat_lt. auto.
Qed.
Print Assumptions C119_connectivity.
(** E.g. quadratic cells, 2 x 3 of them: 6 rows of 9 nodes, 35 grid points. *)
Example C119_case : exists conn, tensor_prod_conn 2 2 [2; 3] = Ret conn /\ length conn = 6 /\ nth 3 conn [] = [12; 14; 22; 24; 13; 17; 19; 23; 18].
Proof. eexists. split; [reflexivity|]. split; reflexivity. Qed.

(** C120: the nodes of a Cartesian mesh in 2D and 3D are at the equispaced positions of the cells, whatever the content of fresh arrays. *)
Lemma map_lens (breaks : list (list R)) degree pts : 1 <= degree -> Forall (fun b => 2 <= length b) breaks ->
  Forall2 (fun b r => length r = (length b - 1) * degree + 1) breaks pts -> map (@length R) pts = point_dims degree (cells_of_breaks breaks).
Proof. intros H B F. unfold point_dims, cells_of_breaks. rewrite map_map. induction F; cbn; auto. f_equal; auto. inversion B; auto. Qed.
Lemma pmap_f2 {A B} (f : A -> outcome B) (Q : A -> B -> Prop) l : (forall x, In x l -> exists y, f x = Ret y /\ Q x y) -> exists ys, pmap f l = Ret ys /\ Forall2 Q l ys.
Proof. induction l as [|x l IH]; intros H; cbn; [exists []; auto|]. destruct (H x ltac:(cbn; auto)) as (y & E & Y). destruct IH as (ys & E' & F); [intros; apply H; cbn; auto|]. exists (y :: ys). rewrite E, E'. cbn. auto. Qed.
Lemma f2_nth' {A B} (R : A -> B -> Prop) l l' d d' : Forall2 R l l' -> forall i, i < length l -> R (nth i l d) (nth i l' d').
Proof. induction 1; intros [|i] H'; cbn in *; try lia; auto. apply IHForall2. lia. Qed.
Theorem C120_nodes : forall fresh breaks degree, 2 <= length breaks <= 3 -> 1 <= degree -> Forall (fun b => 2 <= length b) breaks ->
  let n := cells_of_breaks breaks in
  exists nodes, nodes_from_cells fresh breaks degree = Ret nodes /\ length nodes = fold_right Nat.mul 1 (point_dims degree n)
    /\ (forall c t, index n c -> index (repeat (degree + 1) (length n)) t -> nth (flat (point_dims degree n) (point_of degree c t)) nodes [] = coordinates breaks degree c t)
    /\ (** together with the connectivity: node k of cell c *)
       exists conn, tensor_prod_conn (length n) degree n = Ret conn /\
       (forall c k, index n c -> k < (degree + 1) ^ length n -> nth (nth k (nth (flat n c) conn []) 0) nodes [] = coordinates breaks degree c (nth k (basix_order degree (length n)) [])).
Proof.
  intros fresh breaks degree Hb H B n. assert (Ln : length n = length breaks) by (unfold n, cells_of_breaks; apply map_length).
  set (Q := fun (b r : list R) => length r = (length b - 1) * degree + 1 /\ forall i j, i < length b - 1 -> j <= degree -> nth (degree * i + j) r 0%R = (nth i b 0 + INR j / INR degree * (nth (i + 1) b 0 - nth i b 0))%R).
  assert (PT : exists pts, (if degree =? 1 then Ret breaks else pmap (pts_of_breaks fresh degree) breaks) = Ret pts /\ Forall2 Q breaks pts).
  { rewrite Forall_forall in B. destruct (Nat.eqb_spec degree 1) as [->|N].
    - exists breaks. split; auto. clear Hb Ln n. induction breaks as [|b bs IH]; constructor; [|apply IH; intros; apply B; cbn; auto]. specialize (B b ltac:(cbn; auto)). split; [lia|].
      intros i j Hi Hj. rewrite <- (pt_val_eq 1 b (length b - 1)) by lia. rewrite pt_val1. reflexivity.
    - apply pmap_f2. intros b Ib. specialize (B b Ib). destruct (pts_ok fresh degree b (length b - 1)) as (r & E & L & V); try lia. exists r. split; auto. split; auto.
      intros i j Hi Hj. rewrite <- (pt_val_eq degree b (length b - 1)) by lia. apply V. assert (S i * degree <= (length b - 1) * degree) by (apply Nat.mul_le_mono_r; lia). cbn in *. lia. }
  destruct PT as (pts & E & F). assert (Lp : length pts = length breaks) by (symmetry; apply (f2_len_c _ _ _ F)).
  assert (M : map (@length R) pts = point_dims degree n) by (unfold n; apply map_lens; auto; clear - F; induction F as [|? ? ? ? (? & _)]; auto).
  destruct (nodes_points pts ltac:(lia)) as (nodes & En & Lnodes & V). rewrite M in Lnodes, V.
  assert (C : forall c t, index n c -> index (repeat (degree + 1) (length n)) t -> nth (flat (point_dims degree n) (point_of degree c t)) nodes [] = coordinates breaks degree c t).
  { intros c t Ic It. rewrite V by (apply point_index; auto). unfold coordinates. rewrite Lp. apply map_ext_in. intros d Hd. apply in_seq in Hd.
    pose proof (f2_nth' _ _ _ [] [] F d ltac:(lia)) as (_ & W). assert (Lc : length c = length n) by (apply (f2_len_c _ _ _ Ic)). assert (Lt : length t = length n) by (rewrite (f2_len_c _ _ _ It), repeat_length; auto).
    pose proof (f2_nth' _ _ _ 0 0 Ic d ltac:(lia)) as Bc. cbn beta in Bc. unfold n in Bc at 1. unfold cells_of_breaks in Bc. rewrite (nth_map_at _ _ _ []) in Bc by lia.
    pose proof (f2_nth' _ _ _ 0 (degree + 1) It d ltac:(lia)) as Bt. cbn beta in Bt. rewrite nth_repeat in Bt.
    cbv zeta. rewrite <- W by (auto; lia). f_equal. unfold point_of. rewrite (nth_map_at _ _ _ (0, 0)) by (rewrite combine_length; lia). rewrite combine_nth by lia. reflexivity. }
  exists nodes. split; [|split; [auto|split; [exact C|]]].
  - unfold nodes_from_cells. replace ((1 <=? length breaks) && (length breaks <=? 3)) with true by (symmetry; apply andb_true_iff; split; apply Nat.leb_le; lia).
    replace (1 <=? degree) with true by (symmetry; apply Nat.leb_le; lia). cbn [assert_]. rewrite E. cbn [bind]. auto.
  - assert (P : pos_dims n). { unfold pos_dims, n, cells_of_breaks. apply Forall_forall. intros x Hx. apply in_map_iff in Hx. destruct Hx as (b & <- & Ib). rewrite Forall_forall in B. specialize (B b Ib). lia. }
    assert (Hd : 1 <= length n <= 3) by lia. destruct (conn_ok degree n Hd H P) as (conn & Ec & _ & _ & Vc). exists conn. split; auto. intros c k Ic Hk. rewrite Vc by auto. apply C; auto. apply basix_index; auto. apply nth_In. rewrite basix_len; auto.
Qed.
(** The same helper in 1D (not reachable from CartesianMesh, which requires 2D or 3D): only the first point. *)
Theorem C120_helper_1D : forall fresh x y z, nodes_from_cells fresh [[x; y; z]] 1 = Ret [[x]].
Proof. reflexivity. Qed.
Print Assumptions C120_nodes.
Print Assumptions C120_helper_1D.
Example C120_case : exists nodes, nodes_from_cells (fun _ => 7%R) [[0; 1; 3]; [0; 2]]%R 1 = Ret nodes /\ nth 5 nodes [] = [3; 2]%R /\ length nodes = 6.
Proof. eexists. split; [reflexivity|]. split; reflexivity. Qed.
