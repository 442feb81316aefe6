(** Theorems for reparameterization meshes (C44-C48, C50, C51, C79). *)
From Coq Require Import Reals List Lia Lra Permutation Arith ZArith.
From Verif Require Import M_Mesh S_Mesh S_MeshOps S_Point L_Point L_Mesh L_Mesh2 L_Mesh3 L_Mesh4 L_Mesh5 L_Mesh6 L_Mesh7.
Import ListNotations.
Local Close Scope R_scope. Local Close Scope Z_scope. Local Open Scope nat_scope.

(** C44: every mesh obtained by any history of operations, with all allocated cell points filled, is valid. *)
Theorem C44_mesh_histories_valid : forall dim range m, 1 <= dim -> 0 < range -> reachable dim range m [] ->
  valid dim (m_order m) (m_points m) (m_conn m) (m_wires m).
Proof. exact (fun dim range m Hd Hr H => proj1 (pmesh_nil dim m) (reachable_pmesh dim range Hd Hr m [] H)). Qed.
Print Assumptions C44_mesh_histories_valid.

(** C45: what add_full_cell appends. *)
Theorem C45_full_cell : forall cheb dim m domain wb, dim = 2 \/ dim = 3 -> valid dim (m_order m) (m_points m) (m_conn m) (m_wires m) ->
  length (bmin domain) = dim -> length (bmax domain) = dim ->
  exists m' new, add_full_cell cheb dim m domain wb = Ret m' /\ m_order m' = m_order m /\
    m_points m' = m_points m ++ new /\ length new = m_order m ^ dim /\
    (forall t d, is_index dim (m_order m) t -> d < dim ->
       let lo := nth d (bmin domain) 0%R in let hi := nth d (bmax domain) 0%R in let i := nth d t 0 in
       length (nth (position (m_order m) t) new []) = dim /\
       nth d (nth (position (m_order m) t) new []) 0%R =
         (lo + (hi - lo) * (if m_order m <? 7 then INR i / INR (m_order m - 1) else cheb i (m_order m)))%R) /\
    m_conn m' = m_conn m ++ seq (length (m_points m)) (m_order m ^ dim) /\
    m_wires m' = m_wires m ++ (if wb then flat_map (fun e => map (fun i => length (m_points m) + position (m_order m) (edge_point dim (m_order m) e i))
                                                     (seq 0 (m_order m))) (seq 0 (edge_count dim)) else []).
Proof. exact C45_proof. Qed.
Print Assumptions C45_full_cell.

(** C46: merge keeps the cells and edges of both meshes, with the same points; meshes of different orders are rejected. *)
Theorem C46_merge_meshes : forall dim m o, valid dim (m_order m) (m_points m) (m_conn m) (m_wires m) -> valid dim (m_order o) (m_points o) (m_conn o) (m_wires o) ->
  m_order m = m_order o ->
  forall cm co wm wo, length (m_conn m) = cm * m_order m ^ dim -> length (m_conn o) = co * m_order o ^ dim ->
    length (m_wires m) = wm * m_order m -> length (m_wires o) = wo * m_order o ->
  exists r, mesh_merge m o = Ret r /\ m_order r = m_order m /\ m_points r = m_points m ++ m_points o /\
    length (m_conn r) = (cm + co) * m_order r ^ dim /\ length (m_wires r) = (wm + wo) * m_order r /\
    (forall c, c < cm -> group_ids (m_order r ^ dim) (m_conn r) c = group_ids (m_order m ^ dim) (m_conn m) c) /\
    (forall c, c < cm -> group_points (m_order r ^ dim) (m_points r) (m_conn r) c = group_points (m_order m ^ dim) (m_points m) (m_conn m) c) /\
    (forall c, c < co -> group_points (m_order r ^ dim) (m_points r) (m_conn r) (cm + c) = group_points (m_order o ^ dim) (m_points o) (m_conn o) c) /\
    (forall c, c < wm -> group_points (m_order r) (m_points r) (m_wires r) c = group_points (m_order m) (m_points m) (m_wires m) c) /\
    (forall c, c < wo -> group_points (m_order r) (m_points r) (m_wires r) (wm + c) = group_points (m_order o) (m_points o) (m_wires o) c).
Proof. exact C46_proof. Qed.
Print Assumptions C46_merge_meshes.

(** C47: the mask is a permutation, and the point it puts at the position VTK gives to an index is the point with that index. *)
Theorem C47_vtu_mask : forall dim order, 1 <= dim <= 3 -> 2 <= order -> exists mask, vtu_mask dim order = Ret mask /\ Permutation mask (seq 0 (order ^ dim)) /\
  (forall t, is_index dim order t -> vtk_index order t < order ^ dim /\ nth (vtk_index order t) mask 0 = position order t).
Proof. exact C47_proof. Qed.
Print Assumptions C47_vtu_mask.
(** ... and so the written connectivity lists, cell by cell, the points of the cell in VTK's order. *)
Theorem C47_vtu_connectivity : forall dim m n, 1 <= dim <= 3 -> valid dim (m_order m) (m_points m) (m_conn m) (m_wires m) -> length (m_conn m) = n * m_order m ^ dim ->
  exists out, vtu_connectivity dim m = Ret out /\ length out = n * m_order m ^ dim /\
   (forall c, c < n -> Permutation (group_ids (m_order m ^ dim) out c) (group_ids (m_order m ^ dim) (m_conn m) c)) /\
   (forall c t, c < n -> is_index dim (m_order m) t ->
     nth (c * m_order m ^ dim + vtk_index (m_order m) t) out 0 = nth (c * m_order m ^ dim + position (m_order m) t) (m_conn m) 0).
Proof. exact C47_conn_proof. Qed.
Print Assumptions C47_vtu_connectivity.

(** C48: permute_cell_directions changes only the given cell, by the flip, and is an involution. *)
Theorem C48_permute_cell : forall dim m n cell, 1 <= dim -> valid dim (m_order m) (m_points m) (m_conn m) (m_wires m) -> length (m_conn m) = n * m_order m ^ dim ->
  (cell < n -> exists m', permute_cell_directions dim m cell = Ret m' /\ m_order m' = m_order m /\ m_points m' = m_points m /\ m_wires m' = m_wires m /\
     length (m_conn m') = length (m_conn m) /\
     (forall t, is_index dim (m_order m) t -> nth (cell * m_order m ^ dim + position (m_order m) t) (m_conn m') 0 =
                                              nth (cell * m_order m ^ dim + position (m_order m) (flip (m_order m) t)) (m_conn m) 0) /\
     (forall c, c <> cell -> group_ids (m_order m ^ dim) (m_conn m') c = group_ids (m_order m ^ dim) (m_conn m) c) /\
     permute_cell_directions dim m' cell = Ret m) /\
  (n <= cell -> permute_cell_directions dim m cell = Abort).
Proof. exact C48_proof. Qed.
Print Assumptions C48_permute_cell.

(** C50 is false: a closed edge that is symmetric at its ends only is kept together with its reversal, whatever the sorting routines. *)
Theorem C50_one_copy_refuted : exists m, valid 2 (m_order m) (m_points m) (m_conn m) (m_wires m) /\
  forall sort esort, sorting_routine (m_points m) sort -> sorts_by edge_lt esort ->
  exists r, merge_coincident_points sort esort 2 m 0%R = Ret r /\ exists a b, a < 2 /\ b < 2 /\ a <> b /\ length (m_wires r) = 2 * m_order r /\
    same_edge (group_ids (m_order r) (m_wires r) a) (group_ids (m_order r) (m_wires r) b).
Proof. exact (ex_intro _ loop_mesh C50_witness). Qed.
Print Assumptions C50_one_copy_refuted.
(** C50, the true part: the edges of the result are, up to reversal, exactly the renumbered old ones, each listed once; an edge and
    its reversal are both kept only if its ends coincide, its second and second-last points coincide, and the order is at least 6. *)
Theorem C50_one_copy_partial : forall sort esort dim range m tol, valid dim (m_order m) (m_points m) (m_conn m) (m_wires m) -> 2 <= length (m_points m) ->
  (0 <= tol)%R -> 0 < range -> sorting_routine (m_points m) sort -> sorts_by edge_lt esort ->
  let new_id := fun i => nth i (snd (make_points_unique sort range (m_points m) tol [])) 0 in
  exists r w w', merge_coincident_points sort esort range m tol = Ret r /\ m_order r = m_order m /\
    m_points r = fst (make_points_unique sort range (m_points m) tol []) /\ m_conn r = map new_id (m_conn m) /\
    length (m_wires m) = w * m_order m /\ length (m_wires r) = w' * m_order m /\
    (forall c, c < w -> exists c', c' < w' /\ same_edge (group_ids (m_order m) (m_wires r) c') (map new_id (group_ids (m_order m) (m_wires m) c))) /\
    (forall c', c' < w' -> exists c, c < w /\ same_edge (group_ids (m_order m) (m_wires r) c') (map new_id (group_ids (m_order m) (m_wires m) c))) /\
    (forall a b, a < w' -> b < w' -> a <> b -> group_ids (m_order m) (m_wires r) a <> group_ids (m_order m) (m_wires r) b) /\
    (forall a b, a < w' -> b < w' -> a <> b -> same_edge (group_ids (m_order m) (m_wires r) a) (group_ids (m_order m) (m_wires r) b) ->
       let e := group_ids (m_order m) (m_wires r) a in
       6 <= m_order m /\ hd 0 e = last e 0 /\ nth 1 e 0 = nth (m_order m - 2) e 0).
Proof. exact C50_proof. Qed.
Print Assumptions C50_one_copy_partial.

(** C51: the points of an edge, in the direction that starts at the smaller end id. *)
Theorem C51_edge_points : forall dim m n cell edge, dim = 2 \/ dim = 3 -> valid dim (m_order m) (m_points m) (m_conn m) (m_wires m) -> length (m_conn m) = n * m_order m ^ dim ->
  cell < n -> edge < edge_count dim ->
  let along := map (fun i => nth (cell * m_order m ^ dim + position (m_order m) (edge_point dim (m_order m) edge i)) (m_conn m) 0) (seq 0 (m_order m)) in
  exists ids, get_edge_points dim m cell (Z.of_nat edge) = Ret ids /\ length ids = m_order m /\ hd 0 ids <= last ids 0 /\
    (hd 0 along < last along 0 -> ids = along) /\ (last along 0 < hd 0 along -> ids = rev along) /\ (ids = along \/ ids = rev along).
Proof. exact C51_proof. Qed.
Print Assumptions C51_edge_points.
(** Two different edges of a cell have at most one point in common, an end of both. *)
Theorem C51_edges_share_ends : forall dim order e f, dim = 2 \/ dim = 3 -> 2 <= order -> e < edge_count dim -> f < edge_count dim -> e <> f ->
  forall i j, i < order -> j < order -> edge_point dim order e i = edge_point dim order f j ->
  (i = 0 \/ i = order - 1) /\ (j = 0 \/ j = order - 1) /\
  (forall i' j', i' < order -> j' < order -> edge_point dim order e i' = edge_point dim order f j' -> i' = i /\ j' = j).
Proof. exact edge_share. Qed.
Print Assumptions C51_edges_share_ends.

(** C79: generate_wirebasket appends exactly the selected edges, in order, with the points get_edge_points returns for them. *)
Theorem C79_wirebasket : forall range dim dom tol check_face check_internal edges, dim = 2 \/ dim = 3 -> forall m,
  valid dim (m_order m) (m_points m) (m_conn m) (m_wires m) -> Forall (fun p => length p = range) (m_points m) ->
  length (bmin dom) = range -> length (bmax dom) = range ->
  Forall (fun ce => (fst ce + 1) * m_order m ^ dim <= length (m_conn m) /\ snd ce < edge_count dim) edges ->
  exists chosen, generate_wirebasket range dim m edges dom tol check_face check_internal =
      Ret (mk_mesh (m_order m) (m_points m) (m_conn m) (m_wires m ++ concat (map snd chosen))) /\
    (exists sel, map fst chosen = filter sel edges /\
      forall ce ids, In ce edges -> get_edge_points dim m (fst ce) (Z.of_nat (snd ce)) = Ret ids ->
        (sel ce = true <-> wire_edge range tol (bmin dom) (bmax dom) check_face check_internal (map (fun i => nth i (m_points m) []) ids))) /\
    (forall ce ids, In (ce, ids) chosen -> get_edge_points dim m (fst ce) (Z.of_nat (snd ce)) = Ret ids).
Proof. exact gwb_ok. Qed.
Print Assumptions C79_wirebasket.

(** ** The hypotheses are met. *)
Definition unit_square : bbox := mk_box [0; 0]%R [1; 1]%R.
Example ex_new : new_mesh 3 = Ret (mk_mesh 3 [] [] []).
Proof. reflexivity. Qed.
(** A history: a cell is added, merged with itself, its points merged, and a cell permuted. *)
Example ex_history : exists m, reachable 2 2 m [] /\ length (m_conn m) = 18 /\ m_order m = 3.
Proof.
  assert (R0 : reachable 2 2 (mk_mesh 3 [] [] []) []) by (apply (r_new 2 2 3); reflexivity).
  destruct (C45_proof (fun _ _ => 0%R) 2 (mk_mesh 3 [] [] []) unit_square true (or_introl eq_refl) (C44_mesh_histories_valid 2 2 _ ltac:(lia) ltac:(lia) R0) eq_refl eq_refl)
    as (m1 & new & E1 & Eo & Ep & Ln & _ & Ec & Ew). cbn [m_order m_points m_conn m_wires] in *.
  assert (R1 : reachable 2 2 m1 []) by (eapply r_full_cell; [exact R0|auto|exact E1]).
  assert (L1 : length (m_conn m1) = 9) by (rewrite Ec; reflexivity). assert (W1 : length (m_wires m1) = 12) by (rewrite Ew; reflexivity).
  pose proof (C44_mesh_histories_valid 2 2 m1 ltac:(lia) ltac:(lia) R1) as V1.
  destruct (C46_proof 2 m1 m1 V1 V1 eq_refl 1 1 4 4) as (m2 & E2 & Eo2 & Ep2 & Ec2 & _); try (rewrite ?L1, ?W1, Eo; reflexivity).
  assert (R2 : reachable 2 2 m2 []) by (eapply r_merge; [exact R1|exact R1|exact E2]).
  assert (L2 : length (m_conn m2) = 18) by (rewrite Ec2, Eo2, Eo; reflexivity).
  destruct (C48_proof 2 m2 2 1 ltac:(lia) (C44_mesh_histories_valid 2 2 m2 ltac:(lia) ltac:(lia) R2)) as [P _]; [rewrite L2, Eo2, Eo; reflexivity|].
  destruct (P ltac:(lia)) as (m3 & E3 & Eo3 & _ & _ & L3 & _). exists m3. split; [eapply r_permute; [exact R2|exact E3]|]. split; [lia|]. congruence.
Qed.
Example ex_sorts : sorts_by edge_lt esort_ins.
Proof. exact esort_ins_ok. Qed.
Example ex_vtk : vtk_index 4 [2; 3; 0] = 8 + 1 + 4.
Proof. reflexivity. Qed.
(** An edge of the unit square is selected without further checks, an interior edge is not. *)
Example ex_wire : wire_edge 2 0%R [0; 0]%R [1; 1]%R (fun _ => false) (fun _ => false) [[0; 0]; [0; 1]]%R /\
  ~ wire_edge 2 0%R [0; 0]%R [1; 1]%R (fun _ => false) (fun _ => false) [[0; / 2]; [1; / 2]]%R.
Proof.
  split.
  - split.
    + intros K. specialize (K [0; 1]%R (or_intror (or_introl eq_refl)) 1 ltac:(lia)). unfold near in K. cbn in K. rewrite Rabs_left in K by lra. lra.
    + left. intros p [<-|[<-|[]]]; exists [0]; (split; [repeat constructor; intros []|]); (split; [reflexivity|]); intros d [<-|[]]; (split; [lia|]); exists false; unfold on_side, near; cbn; rewrite Rminus_0_r, Rabs_R0; split; lra.
  - intros [_ [K|[[_ K]|[_ K]]]].
    + destruct (K [1; / 2]%R (or_intror (or_introl eq_refl))) as (ds & N & L & H). destruct ds as [|d [|? ?]]; try discriminate.
      destruct (H d (or_introl eq_refl)) as [Hd ([|] & A & B)]; destruct d as [|[|d]]; try lia; unfold on_side, near in A, B; cbn in A, B;
        repeat match goal with H : _ /\ _ |- _ => destruct H end;
        try (rewrite Rabs_right in * by lra; lra); try (rewrite Rabs_left in * by lra; lra).
    + specialize (K _ (or_introl eq_refl)). discriminate.
    + specialize (K _ (or_introl eq_refl)). discriminate.
Qed.
