(** C167: the cells of the DOLFINx mesh of a reparameterization have its points in the right places. C168: their geometry. C169: in parallel. *)
From Coq Require Import List Arith Bool Lia Permutation Reals Lra.
From Coquelicot Require Import Coquelicot.
From Verif Require M_Mesh L_Reparam2 S_Lagrange.
From Verif Require Import M_PyBase M_PyNodes S_PyTp S_Orient L_PyNodes L_PyTp L_PyTp2 L_PyTpMesh P_PyNodes M_PyReparam S_PyReparam.
Import ListNotations. Local Open Scope nat_scope.

Lemma digit n : forall dim t d, index (repeat n dim) t -> d < dim -> (flat (repeat n dim) t / n ^ d) mod n = nth d t 0.
Proof.
  induction dim as [|dim IH]; intros t d I Hd; [lia|]. cbn [repeat] in *. inversion I as [|i ? t' ? L I']; subst. cbn [flat].
  destruct d as [|d]; cbn [nth Nat.pow].
  - rewrite Nat.div_1_r, (Nat.mul_comm n), Nat.mod_add by lia. apply Nat.mod_small. auto.
  - rewrite <- Nat.div_div by (try apply Nat.pow_nonzero; lia). rewrite (Nat.mul_comm n), Nat.div_add, (Nat.div_small i n) by lia. cbn [Nat.add]. apply IH; auto. lia.
Qed.
Lemma rsum_perm (l l' : list R) : Permutation l l' -> fold_right Rplus 0%R l = fold_right Rplus 0%R l'.
Proof. induction 1; cbn; try lra. Qed.
Lemma rsum_seq (f : nat -> R) n : S_Lagrange.sum_n n f = fold_right Rplus 0%R (map f (seq 0 n)).
Proof. reflexivity. Qed.
Lemma nth_seq_map {A} (f : nat -> A) n k d : k < n -> nth k (map f (seq 0 n)) d = f k.
Proof. intros H. rewrite (nth_indep _ d (f 0)) by (rewrite map_length, seq_length; auto). rewrite map_nth, seq_nth by auto. reflexivity. Qed.
Lemma pow_pos n d : 1 <= n -> 1 <= n ^ d.
Proof. intros H. assert (n ^ d <> 0) by (apply Nat.pow_nonzero; lia). lia. Qed.

(** The permutation of the columns of one array of cells. *)
Lemma rows_ok dim n conn : 1 <= dim <= 3 -> 2 <= n -> (length conn) mod (n ^ dim) = 0 ->
  exists rows, (mask <- DOLFINx_to_lexicg_nodes dim (n - 1) ;; pmap (fun row => pmap (pat row) mask) (get_conn_array conn (n ^ dim))) = Ret rows
   /\ length rows = length conn / n ^ dim
   /\ forall i, i < length rows -> length (nth i rows []) = n ^ dim /\
        forall k, k < n ^ dim -> nth k (nth i rows []) 0 = nth (i * n ^ dim + flat (repeat n dim) (nth k (basix_order (n - 1) dim) [])) conn 0.
Proof.
  intros Hd Hn Hm. destruct (C110_orders dim (n - 1) Hd ltac:(lia)) as (E & P & _). replace (n - 1 + 1) with n in * by lia. set (N := n ^ dim) in *.
  set (B := basix_order (n - 1) dim) in *. set (pos := flat (repeat n dim)) in *. assert (HN : 1 <= N) by (apply pow_pos; lia).
  assert (LB : length B = N) by (unfold B; rewrite basix_len by lia; replace (n - 1 + 1) with n by lia; reflexivity).
  rewrite E. cbn [bind]. set (C := length conn / N). assert (LC : length conn = C * N). { unfold C. rewrite (Nat.div_mod_eq (length conn) N) at 1. rewrite Hm. lia. }
  set (row := fun c => map (fun t => nth (c * N + pos t) conn 0) B).
  exists (map row (seq 0 C)). split.
  - unfold get_conn_array. fold C. rewrite <- (map_map (fun c => firstn N (skipn (c * N) conn)) (fun x => x)), map_id.
    rewrite (L_PyNodes.pmap_ret _ (fun r => map (fun t => nth (pos t) r 0) B)).
    + rewrite map_map. f_equal. apply map_ext_in. intros c Hc. apply in_seq in Hc. unfold row. apply map_ext_in. intros t Ht.
      assert (pos t < N) by (unfold N; rewrite <- repeat_prod; apply flat_lt; replace n with (n - 1 + 1) by lia; apply basix_index; auto; lia).
      rewrite L_Reparam2.nth_firstn_c by auto. rewrite L_Reparam2.nth_skipn_c. reflexivity.
    + intros r Hr. apply in_map_iff in Hr. destruct Hr as (c & <- & Hc). apply in_seq in Hc. rewrite (L_PyNodes.pmap_ret _ (fun p => nth p (firstn N (skipn (c * N) conn)) 0)).
      * rewrite map_map. reflexivity.
      * intros p Hp. apply pat_ret. rewrite firstn_length, skipn_length. apply (Permutation_in _ P) in Hp. apply in_seq in Hp. nia.
  - rewrite map_length, seq_length. split; [reflexivity|]. intros i Hi. rewrite nth_seq_map by auto. unfold row. rewrite map_length. split; [exact LB|]. intros k Hk.
    rewrite (nth_indep _ 0 (nth (i * N + pos []) conn 0)) by (rewrite map_length; lia). rewrite (map_nth (fun t => nth (i * N + pos t) conn 0)). reflexivity.
Qed.

(** With the same nodes, the map of a row is the map of the cell. *)
Lemma maps_agree dim n conn points i row (c : nat -> R) : 1 <= dim <= 3 -> 2 <= n -> length row = n ^ dim ->
  (forall k, k < n ^ dim -> nth k row 0 = nth (i * n ^ dim + flat (repeat n dim) (nth k (basix_order (n - 1) dim) [])) conn 0) ->
  forall xi comp, dolfinx_map c dim (n - 1) row points xi comp = cell_map c dim n (cell_points (n ^ dim) conn points i) xi comp.
Proof.
  intros Hd Hn Lr Hr xi comp. unfold dolfinx_map, cell_map. replace (n - 1 + 1) with n by lia. set (N := n ^ dim) in *.
  destruct (C110_orders dim (n - 1) Hd ltac:(lia)) as (_ & P & _). replace (n - 1 + 1) with n in P by lia. fold N in P. set (B := basix_order (n - 1) dim) in *. set (pos := flat (repeat n dim)) in *.
  assert (LB : length B = N) by (unfold B; rewrite basix_len by lia; replace (n - 1 + 1) with n by lia; reflexivity).
  set (G := fun k => (nth comp (nth k (cell_points N conn points i) []) 0 * fold_right Rmult 1 (map (fun d => lagrange c n ((k / n ^ d) mod n) (nth d xi 0)) (seq 0 dim)))%R).
  rewrite rsum_seq. fold G. rewrite <- (rsum_perm _ _ (Permutation_map G P)). rewrite map_map. f_equal.
  apply (nth_ext _ _ 0%R (G (pos []))); [rewrite !map_length, seq_length; lia|]. rewrite map_length, seq_length. intros k Hk. rewrite nth_seq_map by auto.
  rewrite (map_nth (fun t => G (pos t))). unfold G.
  assert (I : index (repeat n dim) (nth k B [])). { assert (Ib : In (nth k B []) B) by (apply nth_In; lia). pose proof (basix_index (n - 1) dim _ Hd ltac:(lia) Ib) as X. replace (n - 1 + 1) with n in X by lia. exact X. }
  assert (Hp : pos (nth k B []) < N) by (unfold N; rewrite <- repeat_prod; apply flat_lt; auto).
  rewrite Hr by auto. unfold cell_points. rewrite nth_seq_map by auto. do 2 f_equal. apply map_ext_in. intros d Hdd. apply in_seq in Hdd. unfold pos. rewrite digit by (auto; lia). reflexivity.
Qed.

(** C167: the DOLFINx mesh made of a reparameterization (its cells, or its wirebasket) has one cell per cell (curve of the wirebasket), in order,
    and for any nodes of the element the same geometry: node k of the row is the point with the tensor index of basix' node k. *)
Theorem C167_create_mesh : forall dim (wirebasket : bool) m, 1 <= dim <= 3 -> 2 <= M_Mesh.m_order m ->
  let n := M_Mesh.m_order m in let tdim := if wirebasket then 1 else dim in let conn := if wirebasket then M_Mesh.m_wires m else M_Mesh.m_conn m in
  length conn mod (n ^ tdim) = 0 ->
  exists rows, create_mesh_rows dim wirebasket m = Ret (n - 1, rows, M_Mesh.m_points m) /\ length rows = length conn / n ^ tdim
   /\ forall i, i < length rows -> length (nth i rows []) = n ^ tdim
        /\ (forall k, k < n ^ tdim -> nth k (nth i rows []) 0 = nth (i * n ^ tdim + flat (repeat n tdim) (nth k (basix_order (n - 1) tdim) [])) conn 0)
        /\ forall c xi comp, dolfinx_map c tdim (n - 1) (nth i rows []) (M_Mesh.m_points m) xi comp = cell_map c tdim n (cell_points (n ^ tdim) conn (M_Mesh.m_points m) i) xi comp.
Proof.
  intros dim w m Hd Hn n tdim conn Hm. assert (Ht : 1 <= tdim <= 3) by (unfold tdim; destruct w; lia).
  destruct (rows_ok tdim n conn Ht Hn Hm) as (rows & E & L & H). exists rows. split; [|split; [exact L|]].
  - unfold create_mesh_rows. fold n. assert (Ec : (if w then get_conn_array (M_Mesh.m_wires m) n else get_conn_array (M_Mesh.m_conn m) (n ^ dim)) = get_conn_array conn (n ^ tdim)).
    { unfold conn, tdim. destruct w; [rewrite Nat.pow_1_r|]; reflexivity. }
    rewrite Ec. fold tdim. destruct (DOLFINx_to_lexicg_nodes tdim (n - 1)) as [mask| | |]; cbn [bind] in *; try discriminate. rewrite E. reflexivity.
  - intros i Hi. destruct (H i Hi) as (H1 & H2). split; [exact H1|]. split; [exact H2|]. intros c xi comp. apply maps_agree; auto.
Qed.
(** The degree of the mesh is the one asked for (at least 1), when the algorithm gives meshes with the number of points per direction asked for. *)
Theorem C167_degree : forall D (algo : D -> nat -> bool -> outcome M_Mesh.mesh) domain deg m dim (wirebasket : bool) degree rows points,
  (forall n b m', algo domain n b = Ret m' -> M_Mesh.m_order m' = n) ->
  create_reparam_mesh algo domain deg = Ret m -> create_mesh_rows dim wirebasket m = Ret (degree, rows, points) -> degree = deg /\ 1 <= deg /\ exists n b, algo domain n b = Ret m.
Proof.
  intros D algo domain deg m dim w degree rows points Ho E1 E2. unfold create_reparam_mesh, assert_ in E1. destruct (Nat.ltb_spec 0 deg); [|discriminate].
  assert (E : degree = M_Mesh.m_order m - 1).
  { unfold create_mesh_rows in E2. destruct (DOLFINx_to_lexicg_nodes _ _) as [mask| | |]; cbn [bind] in E2; try discriminate. destruct (pmap _ _) as [r| | |]; cbn [bind] in E2; try discriminate. congruence. }
  rewrite (Ho _ _ _ E1) in E. split; [lia|]. split; [lia|]. eauto.
Qed.
Print Assumptions C167_degree.
Print Assumptions C167_create_mesh.
(** The mesh of two squares of the next example. *)
Example C167_case : length [0; 1; 2; 3; 1; 4; 3; 5] mod (2 ^ 2) = 0
  /\ create_mesh_rows 2 false (M_Mesh.mk_mesh 2 [[0; 0]; [1; 0]; [0; 1]; [1; 1]; [2; 0]; [2; 1]]%R [0; 1; 2; 3; 1; 4; 3; 5] [0; 1]) = Ret (1, [[0; 1; 2; 3]; [1; 4; 3; 5]], [[0; 0]; [1; 0]; [0; 1]; [1; 1]; [2; 0]; [2; 1]]%R).
Proof. split; reflexivity. Qed.

Open Scope R_scope.
Lemma legendre2_eq x : legendre 2 x = (3 * x * x - 1) / 2. Proof. unfold legendre. cbn [legendre2 fst snd INR]. field. Qed.
Lemma legendre3_eq x : legendre 3 x = (5 * x * x * x - 3 * x) / 2. Proof. unfold legendre. cbn [legendre2 fst snd INR]. field. Qed.
Lemma d_legendre2 x : Derive (legendre 2) x = 3 * x.
Proof. rewrite (Derive_ext _ (fun x => (3 * x * x - 1) / 2)) by apply legendre2_eq. apply is_derive_unique. auto_derive; [auto|]. field. Qed.
Lemma d_legendre3 x : Derive (legendre 3) x = (15 * x * x - 3) / 2.
Proof. rewrite (Derive_ext _ (fun x => (5 * x * x * x - 3 * x) / 2)) by apply legendre3_eq. apply is_derive_unique. auto_derive; [auto|]. field. Qed.
(** The nodes up to degree 3. *)
Lemma gll_low degree c : gll degree c -> (degree = 1 \/ degree = 2)%nat -> forall i, (i <= degree)%nat -> c i = equispaced degree i.
Proof.
  intros (H0 & H1 & _ & Hz) [-> | ->] i Hi; unfold equispaced.
  - destruct i as [|[|i]]; [rewrite H0|rewrite H1|lia]; cbn; field.
  - specialize (Hz 1%nat ltac:(lia)). rewrite d_legendre2 in Hz. destruct i as [|[|[|i]]]; [rewrite H0; cbn; field| |rewrite H1; cbn; field|lia]. cbn. lra.
Qed.
Lemma gll_3 c : gll 3 c -> exists a, 0 < a < 1 /\ a * a = 1 / 5 /\ c 0%nat = 0 /\ c 1%nat = (1 - a) / 2 /\ c 2%nat = (1 + a) / 2 /\ c 3%nat = 1.
Proof.
  intros (H0 & H1 & Hi & Hz). pose proof (Hz 1%nat ltac:(lia)) as Z1. pose proof (Hz 2%nat ltac:(lia)) as Z2. rewrite d_legendre3 in Z1, Z2. pose proof (Hi 1%nat 2%nat ltac:(lia)) as L.
  set (u := 2 * c 1%nat - 1) in *. set (v := 2 * c 2%nat - 1) in *. assert (E : (v - u) * (v + u) = 0) by lra. apply Rmult_integral in E. destruct E as [E|E]; [unfold u, v in E; lra|].
  exists v. assert (0 < v) by (unfold u, v in *; lra). assert (v * v = 1 / 5) by lra. assert (v < 1) by nra. repeat split; auto; unfold u, v in *; lra.
Qed.
Lemma gll_exists : exists c, gll 1 c /\ exists c2, gll 2 c2 /\ exists c3, gll 3 c3.
Proof.
  assert (A : 0 < sqrt (1 / 5)) by (apply sqrt_lt_R0; lra). assert (B : sqrt (1 / 5) * sqrt (1 / 5) = 1 / 5) by (apply sqrt_sqrt; lra). set (a := sqrt (1 / 5)) in *. assert (C : a < 1) by nra.
  exists (fun i => match i with 0%nat => 0 | _ => 1 end). split.
  { split; [reflexivity|]. split; [reflexivity|]. split; [intros [|i] [|j] H; try lia; lra|intros; lia]. }
  exists (fun i => match i with 0%nat => 0 | 1%nat => 1/2 | _ => 1 end). split.
  { split; [reflexivity|]. split; [reflexivity|]. split; [intros [|[|i]] [|[|j]] H; try lia; lra|]. intros i H. assert (i = 1%nat) as -> by lia. rewrite d_legendre2. lra. }
  exists (fun i => match i with 0%nat => 0 | 1%nat => (1 - a) / 2 | 2%nat => (1 + a) / 2 | _ => 1 end).
  split; [reflexivity|]. split; [reflexivity|]. split; [intros [|[|[|i]]] [|[|[|j]]] H; try lia; lra|]. intros i H. rewrite d_legendre3. assert (i = 1 \/ i = 2)%nat as [-> | ->] by lia; nra.
Qed.
Lemma lagrange_ext c c' n i x : (i < n)%nat -> (forall j, (j < n)%nat -> c j = c' j) -> lagrange c n i x = lagrange c' n i x.
Proof. intros Hi H. unfold lagrange. f_equal. apply map_ext_in. intros j Hj. apply in_seq in Hj. rewrite (H j), (H i) by lia. reflexivity. Qed.

(** C168: the DOLFINx mesh is the reparameterization: the geometry of its cells is that of the cells of the reparameterization (interpolation of
    the points at equispaced nodes). Right for degrees 1 and 2; *)
Theorem C168_geometry_partial : forall dim (wirebasket : bool) m c, (1 <= dim <= 3)%nat -> (M_Mesh.m_order m = 2 \/ M_Mesh.m_order m = 3)%nat ->
  let n := M_Mesh.m_order m in let tdim := (if wirebasket then 1 else dim)%nat in let conn := if wirebasket then M_Mesh.m_wires m else M_Mesh.m_conn m in
  (length conn mod (n ^ tdim) = 0)%nat -> gll (n - 1) c ->
  exists rows, create_mesh_rows dim wirebasket m = Ret ((n - 1)%nat, rows, M_Mesh.m_points m) /\ length rows = (length conn / n ^ tdim)%nat
   /\ forall i xi comp, (i < length rows)%nat -> dolfinx_map c tdim (n - 1) (nth i rows []) (M_Mesh.m_points m) xi comp
        = cell_map (equispaced (n - 1)) tdim n (cell_points (n ^ tdim) conn (M_Mesh.m_points m) i) xi comp.
Proof.
  intros dim w m c Hd Ho n tdim conn Hm Hc. fold n in Ho. destruct (C167_create_mesh dim w m Hd ltac:(fold n; lia) Hm) as (rows & E & L & H). fold n tdim conn in E, L, H.
  exists rows. split; [exact E|]. split; [exact L|]. intros i xi comp Hi. destruct (H i Hi) as (_ & _ & X). rewrite X.
  unfold cell_map, S_Lagrange.sum_n. f_equal. apply map_ext. intros k. f_equal. f_equal. apply map_ext. intros d.
  apply lagrange_ext; [apply Nat.mod_upper_bound; lia|]. intros j Hj. apply gll_low; [exact Hc|lia|lia].
Qed.
(** refuted for degree 3, the default: for the points of the curve y = x^3 of the unit square at equispaced x, which the reparameterization
    represents exactly, the curve of the DOLFINx mesh passes through (1/2, 1/12) instead of (1/2, 1/8). *)
Definition cubic_points : list (list R) := [[0; 0]; [1/3; 1/27]; [2/3; 8/27]; [1; 1]].
Theorem C168_geometry_refuted : forall c, gll 3 c ->
  let m := M_Mesh.mk_mesh 4 cubic_points [0; 1; 2; 3]%nat [] in
  exists row, create_mesh_rows 1 false m = Ret (3%nat, [row], cubic_points)
   /\ (forall s, cell_map (equispaced 3) 1 4 (cell_points 4 [0; 1; 2; 3]%nat cubic_points 0) [s] 0 = s /\ cell_map (equispaced 3) 1 4 (cell_points 4 [0; 1; 2; 3]%nat cubic_points 0) [s] 1 = s * s * s)
   /\ dolfinx_map c 1 3 row cubic_points [1/2] 0 = 1/2 /\ dolfinx_map c 1 3 row cubic_points [1/2] 1 = 1/12.
Proof.
  intros c Hc m. exists [0; 3; 1; 2]%nat. split; [reflexivity|]. split.
  - intros s. unfold cell_map, S_Lagrange.sum_n, cell_points, cubic_points, lagrange, equispaced.
    cbn [Nat.pow Nat.mul Nat.add seq map fold_right nth Nat.div Nat.divmod Nat.modulo fst snd Nat.sub Nat.eqb INR]. split; field.
  - destruct (gll_3 c Hc) as (a & Ba & Ea & C0 & C1 & C2 & C3).
    assert (N1 : 1 - a <> 0) by lra. assert (N2 : 1 + a <> 0) by lra. assert (N3 : a <> 0) by lra. assert (N4 : 1 - a * a <> 0) by lra.
    assert (L3 : lagrange c 4 3 (1/2) = -1/8).
    { unfold lagrange. cbn [seq map fold_right Nat.eqb]. rewrite C0, C1, C2, C3. transitivity (- (a * a) / (2 * (1 - a * a))); [field; repeat split; lra|]. rewrite Ea. field. }
    assert (L1 : lagrange c 4 1 (1/2) = 5/8).
    { unfold lagrange. cbn [seq map fold_right Nat.eqb]. rewrite C0, C1, C2, C3. transitivity (1 / (2 * (1 - a * a))); [field; repeat split; lra|]. rewrite Ea. field. }
    assert (L2 : lagrange c 4 2 (1/2) = 5/8).
    { unfold lagrange. cbn [seq map fold_right Nat.eqb]. rewrite C0, C1, C2, C3. transitivity (1 / (2 * (1 - a * a))); [field; repeat split; lra|]. rewrite Ea. field. }
    unfold dolfinx_map, cubic_points. change (basix_order 3 1) with [[0]; [3]; [1]; [2]]%nat. change (3 + 1)%nat with 4%nat. change (4 ^ 1)%nat with 4%nat.
    cbn [seq map fold_right nth]. rewrite L1, L2, L3. split; field.
Qed.
Print Assumptions C168_geometry_partial.
Print Assumptions C168_geometry_refuted.
Example C168_case : (exists c, gll 1 c) /\ (exists c, gll 2 c) /\ (exists c, gll 3 c).
Proof. destruct gll_exists as (c & H & c2 & H2 & c3 & H3). split; [exists c; exact H|]. split; [exists c2; exact H2|exists c3; exact H3]. Qed.

Open Scope nat_scope.
(** C169: over several processes the mesh has every cell of the reparameterization once. Right on one process; *)
Theorem C169_serial_partial : forall dim (wirebasket : bool) m, 1 <= dim <= 3 -> 2 <= M_Mesh.m_order m ->
  let n := M_Mesh.m_order m in let tdim := if wirebasket then 1 else dim in let conn := if wirebasket then M_Mesh.m_wires m else M_Mesh.m_conn m in
  length conn mod (n ^ tdim) = 0 ->
  exists rows, create_mesh_rows dim wirebasket m = Ret (n - 1, rows, M_Mesh.m_points m)
   /\ let cells := global_cells [(rows, M_Mesh.m_points m)] in length cells = length conn / n ^ tdim
      /\ forall i, i < length cells -> nth i cells [] = map (fun t => nth (flat (repeat n tdim) t) (cell_points (n ^ tdim) conn (M_Mesh.m_points m) i) []) (basix_order (n - 1) tdim).
Proof.
  intros dim w m Hd Hn n tdim conn Hm. destruct (C167_create_mesh dim w m Hd Hn Hm) as (rows & E & L & H). fold n tdim conn in E, L, H.
  assert (Ht : 1 <= tdim <= 3) by (unfold tdim; destruct w; lia). fold n in Hn.
  exists rows. split; [exact E|]. set (G := fun row : list nat => map (fun j => nth j (M_Mesh.m_points m) []) row). assert (Eg : global_cells [(rows, M_Mesh.m_points m)] = map G rows) by (unfold global_cells; cbn; rewrite !app_nil_r; reflexivity).
  cbv zeta. rewrite Eg, map_length. split; [exact L|]. intros i Hi.
  destruct (H i Hi) as (Hl & Hk & _).
  rewrite (nth_indep _ [] (G [])) by (rewrite map_length; exact Hi). rewrite map_nth. unfold G.
  assert (Lb : length (basix_order (n - 1) tdim) = n ^ tdim). { rewrite basix_len by lia. f_equal. lia. }
  apply (nth_ext _ _ [] []); [rewrite !map_length; lia|]. intros k Hk'. rewrite map_length, Hl in Hk'.
  set (g1 := fun j => nth j (M_Mesh.m_points m) []). rewrite (nth_indep (map g1 _) [] (g1 0)) by (rewrite map_length; lia). rewrite (map_nth g1), Hk by exact Hk'. unfold g1.
  set (g2 := fun t => nth (flat (repeat n tdim) t) (cell_points (n ^ tdim) conn (M_Mesh.m_points m) i) []). rewrite (nth_indep (map g2 _) [] (g2 [])) by (rewrite map_length; lia). rewrite (map_nth g2). unfold g2.
  assert (Ib : In (nth k (basix_order (n - 1) tdim) []) (basix_order (n - 1) tdim)) by (apply nth_In; lia).
  pose proof (basix_index (n - 1) tdim _ Ht ltac:(lia) Ib) as X. replace (n - 1 + 1) with n in X by lia.
  unfold cell_points. rewrite nth_seq_map; [reflexivity|]. rewrite <- repeat_prod. apply flat_lt. exact X.
Qed.
(** refuted on more: every process creates the reparameterization of the whole domain and hands it over as its part, so that every cell is there
    as many times as there are processes. *)
Open Scope R_scope.
Theorem C169_parallel_refuted : forall D (algo : D -> nat -> bool -> outcome M_Mesh.mesh) domain deg m dim (wirebasket : bool) rows degree points p,
  create_reparam_mesh algo domain deg = Ret m -> create_mesh_rows dim wirebasket m = Ret (degree, rows, points) ->
  (forall row i, In row rows -> In i row -> (i < length points)%nat) -> rows <> [] -> (2 <= p)%nat ->
  let cells := global_cells (repeat (rows, points) p) in
  cells = concat (repeat (map (fun row => map (fun i => nth i points []) row) rows) p) /\ length cells = (p * length rows)%nat /\ (length rows < length cells)%nat.
Proof.
  intros D algo domain deg m dim w rows degree points p _ _ Hr Hne Hp cells.
  assert (E : cells = concat (repeat (map (fun row => map (fun i => nth i points []) row) rows) p)).
  { unfold cells, global_cells. destruct p as [|p]; [lia|]. cbn [repeat map concat fst snd].
    assert (X : forall q, map (fun row => map (fun i => nth i (points ++ concat (map snd (repeat (rows, points) p))) []) row) (concat (map fst (repeat (rows, points) q)))
                 = concat (repeat (map (fun row => map (fun i => nth i points []) row) rows) q)).
    { induction q as [|q IH]; [reflexivity|]. cbn [repeat map concat fst]. rewrite map_app, IH. f_equal. apply map_ext_in. intros row Hrow. apply map_ext_in. intros i Hi. apply app_nth1. eauto. }
    exact (X (S p)). }
  split; [exact E|]. assert (L : length cells = (p * length rows)%nat).
  { rewrite E. clear. induction p as [|p IH]; [reflexivity|]. cbn [repeat concat]. rewrite app_length, IH, map_length. reflexivity. }
  split; [exact L|]. rewrite L. destruct rows; [congruence|]. cbn [length]. nia.
Qed.
Print Assumptions C169_serial_partial.
Print Assumptions C169_parallel_refuted.
(** One cell on two processes. *)
Example C169_case : create_reparam_mesh (fun (_ : unit) n _ => Ret (M_Mesh.mk_mesh n [[0]; [1]] [0; 1]%nat [])) tt 1 = Ret (M_Mesh.mk_mesh 2 [[0]; [1]] [0; 1]%nat [])
  /\ create_mesh_rows 1 false (M_Mesh.mk_mesh 2 [[0]; [1]] [0; 1]%nat []) = Ret (1%nat, [[0; 1]%nat], [[0]; [1]]) /\ length (global_cells (repeat ([[0; 1]%nat], [[0]; [1]]) 2)) = 2%nat.
Proof. split; [reflexivity|]. split; reflexivity. Qed.
