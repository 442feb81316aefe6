(** C178: the picture of a reparameterization has its cells and curves, with their geometry. *)
From Coq Require Import List Arith Bool Lia Permutation Reals Lra.
From Verif Require M_Mesh L_Reparam2 S_Lagrange.
From Verif Require Import M_PyBase M_PyNodes S_PyTp S_Orient L_PyNodes L_PyTp L_PyTp2 L_PyTpMesh P_PyNodes M_PyReparam S_PyReparam P_PyReparam M_PyReparamPic.
Import ListNotations. Local Open Scope nat_scope.

(** The specification. A VTK cell of dimension [dim] and of some degree maps the reference cell by the Lagrange polynomials of the equispaced nodes;
    its points are in VTK's order. *)
Definition vtk_map (dim degree : nat) (row : list nat) (points : list (list R)) (xi : list R) (comp : nat) : R :=
  (fold_right Rplus 0 (map (fun k => nth comp (nth (nth k row O) points []) 0 *
    fold_right Rmult 1 (map (fun d => lagrange (equispaced degree) (degree + 1)%nat (nth d (nth k (vtk_order degree dim) []) O) (nth d xi 0)) (seq 0 dim))) (seq 0 ((degree + 1) ^ dim)%nat)))%R.
(** Cells of that kind. *)
Definition is_cell (dim degree : nat) (t : vtk_type) : Prop :=
  match t with
  | LINE => dim = 1 /\ degree = 1 | QUAD => dim = 2 /\ degree = 1 | HEXAHEDRON => dim = 3 /\ degree = 1
  | LAGRANGE_CURVE => dim = 1 | LAGRANGE_QUADRILATERAL => dim = 2 | LAGRANGE_HEXAHEDRON => dim = 3
  end.

Lemma vtk_idx degree dim t : 1 <= dim <= 3 -> 1 <= degree -> In t (vtk_order degree dim) -> index (repeat (degree + 1) dim) t.
Proof.
  intros Hd H I.
  assert (G : forall vv ee ff, In t (lagrange_order degree dim vv ee ff) -> index (repeat (degree + 1) dim) t).
  { intros vv ee ff J. unfold lagrange_order in J. rewrite !in_app_iff in J. destruct J as [J|[J|[J|J]]].
    - apply in_map_iff in J. destruct J as (v & <- & _). apply node_bound; lia.
    - apply in_flat_map in J. destruct J as (e & _ & J). unfold edge_nodes in J. apply in_map_iff in J. destruct J as (x & <- & J). apply in_seq in J. apply node_bound; lia.
    - apply in_flat_map in J. destruct J as (e & _ & J). unfold face_nodes in J. apply in_flat_map in J. destruct J as (y & Jy & J). apply in_map_iff in J. destruct J as (x & <- & J). apply in_seq in J, Jy. apply node_bound; lia.
    - unfold interior_nodes in J. destruct dim as [|[|[|[|dim]]]]; try lia; cbn [repeat].
      + apply in_map_iff in J. destruct J as (x & <- & J). apply in_seq in J. repeat constructor; lia.
      + apply in_flat_map in J. destruct J as (y & Jy & J). apply in_map_iff in J. destruct J as (x & <- & J). apply in_seq in J, Jy. repeat constructor; lia.
      + apply in_flat_map in J. destruct J as (z & Jz & J). apply in_flat_map in J. destruct J as (y & Jy & J). apply in_map_iff in J. destruct J as (x & <- & J). apply in_seq in J, Jy, Jz. repeat constructor; lia. }
  destruct dim as [|[|[|[|dim]]]]; try lia; cbn [vtk_order] in I; eapply G; eauto.
Qed.
Lemma vtk_facts n dim : 1 <= dim <= 3 -> 2 <= n ->
  let N := n ^ dim in let B := vtk_order (n - 1) dim in let pos := flat (repeat n dim) in
  VTK_to_lexicg_nodes dim (n - 1) = Ret (map pos B) /\ Permutation (map pos B) (seq 0 N) /\ length B = N /\ (forall t, In t B -> index (repeat n dim) t /\ pos t < N).
Proof.
  intros Hd Hn N B pos. destruct (C110_orders dim (n - 1) Hd ltac:(lia)) as (_ & _ & E & P). replace (n - 1 + 1) with n in * by lia.
  fold N B pos in E, P. split; [exact E|]. split; [exact P|]. split.
  - rewrite <- (map_length pos), (Permutation_length P), seq_length. reflexivity.
  - intros t Ht. assert (I : index (repeat n dim) t). { pose proof (vtk_idx (n - 1) dim t Hd ltac:(lia) Ht) as X. replace (n - 1 + 1) with n in X by lia. exact X. }
    split; [exact I|]. unfold pos, N. rewrite <- repeat_prod. apply flat_lt. exact I.
Qed.
Lemma type_ok dim degree : 1 <= dim <= 3 -> exists t, get_PyVista_cell_type dim degree = Ret t /\ is_cell dim degree t.
Proof.
  intros Hd. unfold get_PyVista_cell_type. destruct dim as [|[|[|[|dim]]]]; try lia; cbn [Nat.leb andb assert_ Nat.sub]; destruct (Nat.eqb_spec degree 1) as [E|E];
    eexists; (split; [reflexivity|]); cbn; auto.
Qed.
Lemma grid_ok dim n conn : 1 <= dim <= 3 -> 2 <= n -> (length conn) mod (n ^ dim) = 0 ->
  exists t rows, create_unstructured_grid (get_conn_array conn (n ^ dim)) (n ^ dim) dim (n - 1) = Ret (map (fun r => (t, r)) rows) /\ is_cell dim (n - 1) t
   /\ length rows = length conn / n ^ dim
   /\ forall i, i < length rows -> length (nth i rows []) = n ^ dim /\
        forall k, k < n ^ dim -> nth k (nth i rows []) 0 = nth (i * n ^ dim + flat (repeat n dim) (nth k (vtk_order (n - 1) dim) [])) conn 0.
Proof.
  intros Hd Hn Hm. destruct (vtk_facts n dim Hd Hn) as (E & P & LB & HB). destruct (type_ok dim (n - 1) Hd) as (ty & Et & Hty). set (N := n ^ dim) in *.
  set (B := vtk_order (n - 1) dim) in *. set (pos := flat (repeat n dim)) in *. assert (HN : 1 <= N) by (apply pow_pos; lia).
  unfold create_unstructured_grid. rewrite E. cbn [bind]. set (C := length conn / N).
  assert (LC : length conn = C * N). { unfold C. rewrite (Nat.div_mod_eq (length conn) N) at 1. rewrite Hm. lia. }
  set (row := fun c => map (fun t => nth (c * N + pos t) conn 0) B).
  exists ty, (map row (seq 0 C)). split.
  - assert (ER : pmap (fun r => take_ids r (map pos B)) (get_conn_array conn N) = Ret (map row (seq 0 C))).
    { unfold get_conn_array. fold C. rewrite (L_PyNodes.pmap_ret _ (fun r => map (fun t => nth (pos t) r 0) B)).
      - rewrite map_map. f_equal. apply map_ext_in. intros c Hc. apply in_seq in Hc. unfold row. apply map_ext_in. intros t Ht. destruct (HB t Ht) as (_ & Hp).
        rewrite L_Reparam2.nth_firstn_c by auto. rewrite L_Reparam2.nth_skipn_c. reflexivity.
      - intros r Hr. apply in_map_iff in Hr. destruct Hr as (c & <- & Hc). apply in_seq in Hc. unfold take_ids. rewrite (L_PyNodes.pmap_ret _ (fun p => nth p (firstn N (skipn (c * N) conn)) 0)).
        + rewrite map_map. reflexivity.
        + intros p Hp. apply pat_ret. rewrite firstn_length, skipn_length. apply (Permutation_in _ P) in Hp. apply in_seq in Hp. nia. }
    rewrite ER. cbn [bind]. rewrite map_length, LB, Nat.eqb_refl. cbn [assert_]. rewrite Et. reflexivity.
  - split; [exact Hty|]. rewrite map_length, seq_length. split; [reflexivity|]. intros i Hi. rewrite nth_seq_map by auto. unfold row. rewrite map_length. split; [exact LB|]. intros k Hk.
    rewrite (nth_indep _ 0 (nth (i * N + pos []) conn 0)) by (rewrite map_length; lia). rewrite (map_nth (fun t => nth (i * N + pos t) conn 0)). reflexivity.
Qed.
Lemma vtk_agree dim n conn points points' i row : 1 <= dim <= 3 -> 2 <= n -> length row = n ^ dim ->
  (forall k, k < n ^ dim -> nth k row 0 = nth (i * n ^ dim + flat (repeat n dim) (nth k (vtk_order (n - 1) dim) [])) conn 0) ->
  forall xi comp, (forall j, nth comp (nth j points' []) 0 = nth comp (nth j points []) 0)%R ->
  vtk_map dim (n - 1) row points' xi comp = cell_map (equispaced (n - 1)) dim n (cell_points (n ^ dim) conn points i) xi comp.
Proof.
  intros Hd Hn Lr Hr xi comp Hpt. unfold vtk_map, cell_map. replace (n - 1 + 1) with n by lia.
  destruct (vtk_facts n dim Hd Hn) as (_ & P & LB & HB). set (N := n ^ dim) in *. set (B := vtk_order (n - 1) dim) in *. set (pos := flat (repeat n dim)) in *.
  set (c := equispaced (n - 1)) in *.
  set (G := fun k => (nth comp (nth k (cell_points N conn points i) []) 0 * fold_right Rmult 1 (map (fun d => lagrange c n ((k / n ^ d) mod n) (nth d xi 0)) (seq 0 dim)))%R).
  rewrite rsum_seq. fold G. rewrite <- (rsum_perm _ _ (Permutation_map G P)). rewrite map_map. f_equal.
  apply (nth_ext _ _ 0%R (G (pos []))); [rewrite !map_length, seq_length; lia|]. rewrite map_length, seq_length. intros k Hk. rewrite nth_seq_map by auto.
  rewrite (map_nth (fun t => G (pos t))). unfold G. destruct (HB (nth k B []) ltac:(apply nth_In; lia)) as (I & Hp).
  rewrite Hr by auto. rewrite Hpt. unfold cell_points. rewrite nth_seq_map by auto. do 2 f_equal. apply map_ext_in. intros d Hdd. apply in_seq in Hdd. unfold pos. rewrite digit by (auto; lia). reflexivity.
Qed.

(** C178. The picture of a reparameterization of dimension [dim] in a space of dimension [range], and its wirebasket: one VTK cell per cell (curve), of
    the right type, in order, with the node at VTK's place; up to 6 nodes per direction (where the reparameterization interpolates at equispaced nodes)
    the map of the VTK cell is the map of the cell of the reparameterization. Third components in 2D are zero. *)
Theorem C178_reparam_picture : forall (cheb : nat -> nat -> R) dim range m, 1 <= dim <= 3 -> 2 <= range <= 3 -> 2 <= M_Mesh.m_order m ->
  (forall p, In p (M_Mesh.m_points m) -> length p = range) ->
  let n := M_Mesh.m_order m in length (M_Mesh.m_conn m) mod (n ^ dim) = 0 -> length (M_Mesh.m_wires m) mod n = 0 ->
  exists pic, reparam_mesh_to_PyVista dim range m = Ret pic
   /\ length (rp_points pic) = length (M_Mesh.m_points m)
   /\ (forall j, j < length (rp_points pic) -> length (nth j (rp_points pic) []) = 3 /\ (range = 2 -> nth 2 (nth j (rp_points pic) []) 0%R = 0%R))
   /\ (forall j d, d < range -> nth d (nth j (rp_points pic) []) 0%R = nth d (nth j (M_Mesh.m_points m) []) 0%R)
   /\ forall (wirebasket : bool), let tdim := if wirebasket then 1 else dim in let conn := if wirebasket then M_Mesh.m_wires m else M_Mesh.m_conn m in
      let cells := if wirebasket then rp_wires pic else rp_cells pic in
      length cells = length conn / n ^ tdim
      /\ forall i t row, nth_error cells i = Some (t, row) -> is_cell tdim (n - 1) t /\ length row = n ^ tdim
           /\ (forall k, k < n ^ tdim -> nth k row 0 = nth (i * n ^ tdim + flat (repeat n tdim) (nth k (vtk_order (n - 1) tdim) [])) conn 0)
           /\ (n <= 6 -> forall xi d, d < range ->
                 vtk_map tdim (n - 1) row (rp_points pic) xi d = cell_map (M_Mesh.node01 cheb n) tdim n (cell_points (n ^ tdim) conn (M_Mesh.m_points m) i) xi d).
Proof.
  intros cheb dim range m Hd Hr Ho Hp n Hc Hw. fold n in Ho.
  destruct (grid_ok dim n (M_Mesh.m_conn m) Hd Ho Hc) as (tc & rc & Ec & Tc & Lc & Fc).
  destruct (grid_ok 1 n (M_Mesh.m_wires m) ltac:(lia) Ho ltac:(rewrite Nat.pow_1_r; exact Hw)) as (tw & rw & Ew & Tw & Lw & Fw).
  set (pts := if range =? 2 then map (fun p => p ++ [0%R]) (M_Mesh.m_points m) else M_Mesh.m_points m).
  exists {| rp_points := pts; rp_cells := map (fun r => (tc, r)) rc; rp_wires := map (fun r => (tw, r)) rw |}.
  assert (Lp : length pts = length (M_Mesh.m_points m)) by (unfold pts; destruct (range =? 2); [apply map_length|reflexivity]).
  assert (Dp : forall j d, d < range -> nth d (nth j pts []) 0%R = nth d (nth j (M_Mesh.m_points m) []) 0%R).
  { intros j d Hdr. unfold pts. destruct (range =? 2) eqn:E2; [|reflexivity].
    destruct (Nat.lt_ge_cases j (length (M_Mesh.m_points m))) as [Hj|Hj].
    - rewrite (nth_indep _ [] ([] ++ [0%R])) by (rewrite map_length; exact Hj). rewrite (map_nth (fun p => p ++ [0%R])).
      apply app_nth1. rewrite (Hp _ (nth_In _ [] Hj)). exact Hdr.
    - rewrite !(nth_overflow _ []) by (try rewrite map_length; exact Hj). reflexivity. }
  split; [|split; [exact Lp|split; [|split; [exact Dp|]]]].
  - unfold reparam_mesh_to_PyVista. fold n pts. rewrite Ec. cbn [bind]. rewrite Nat.pow_1_r in Ew. rewrite Ew. reflexivity.
  - cbn [rp_points]. intros j Hj. rewrite Lp in Hj. unfold pts. destruct (Nat.eqb_spec range 2) as [E2|E2].
    + rewrite (nth_indep _ [] ([] ++ [0%R])) by (rewrite map_length; exact Hj). rewrite (map_nth (fun p => p ++ [0%R])).
      pose proof (Hp _ (nth_In _ [] Hj)) as Hl. rewrite app_length, Hl. cbn [length]. split; [lia|]. intros _.
      rewrite app_nth2 by lia. replace (2 - length (nth j (M_Mesh.m_points m) [])) with 0 by lia. reflexivity.
    + pose proof (Hp _ (nth_In _ [] Hj)) as Hl. split; [lia|]. intros; lia.
  - intros w tdim conn cells.
    assert (Ht : 1 <= tdim <= 3) by (unfold tdim; destruct w; lia).
    assert (X : exists t rows, cells = map (fun r => (t, r)) rows /\ is_cell tdim (n - 1) t /\ length rows = length conn / n ^ tdim
       /\ forall i, i < length rows -> length (nth i rows []) = n ^ tdim /\ forall k, k < n ^ tdim -> nth k (nth i rows []) 0 = nth (i * n ^ tdim + flat (repeat n tdim) (nth k (vtk_order (n - 1) tdim) [])) conn 0).
    { unfold cells, tdim, conn. destruct w; [exists tw, rw|exists tc, rc]; auto. }
    destruct X as (t & rows & Ecells & Ht' & Lr & Fr). rewrite Ecells, map_length. split; [exact Lr|].
    intros i t' row Hi. assert (Hin : i < length rows). { rewrite <- (map_length (fun r => (t, r))). apply nth_error_Some. rewrite Hi. discriminate. }
    apply (nth_error_nth _ _ (t, [])) in Hi. rewrite (map_nth (fun r => (t, r))) in Hi. injection Hi as <- <-.
    destruct (Fr i Hin) as (L1 & K1). split; [exact Ht'|]. split; [exact L1|]. split; [exact K1|].
    intros H6 xi d Hdr. cbn [rp_points]. rewrite (vtk_agree tdim n conn (M_Mesh.m_points m) pts i (nth i rows []) Ht Ho L1 K1 xi d (fun j => Dp j d Hdr)).
    unfold cell_map, S_Lagrange.sum_n. f_equal. apply map_ext. intros k. f_equal. f_equal. apply map_ext. intros e.
    assert (En : forall j, equispaced (n - 1) j = M_Mesh.node01 cheb n j).
    { intros j. unfold equispaced, M_Mesh.node01, M_Mesh.use_chebyshev. replace (7 <=? n) with false by (symmetry; apply Nat.leb_gt; lia). reflexivity. }
    unfold lagrange. f_equal. apply map_ext. intros j. rewrite !En. reflexivity.
Qed.
Print Assumptions C178_reparam_picture.
(** Two squares side by side and the curve between their bottom corners. *)
Example C178_case : reparam_mesh_to_PyVista 2 2 (M_Mesh.mk_mesh 2 [[0; 0]; [1; 0]; [0; 1]; [1; 1]; [2; 0]; [2; 1]]%R [0; 1; 2; 3; 1; 4; 3; 5] [0; 1]) =
  Ret {| rp_points := [[0; 0; 0]; [1; 0; 0]; [0; 1; 0]; [1; 1; 0]; [2; 0; 0]; [2; 1; 0]]%R; rp_cells := [(QUAD, [0; 1; 3; 2]); (QUAD, [1; 4; 5; 3])]; rp_wires := [(LINE, [0; 1])] |}
  /\ length [0; 1; 2; 3; 1; 4; 3; 5] mod (2 ^ 2) = 0 /\ (length [0; 1] mod 2 = 0).
Proof. repeat split. Qed.
