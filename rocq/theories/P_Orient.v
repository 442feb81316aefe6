(** Theorems for the orientation of cells (C48, C49, C83). *)
From Coq Require Import Reals List Lia Lra Arith ZArith.
From Coquelicot Require Import Coquelicot.
From Verif Require Import M_Orient S_Orient S_Lagrange S_Mesh S_Affine L_Real L_Point L_Poly L_Poly2 L_Poly4 L_TensorNat L_Lagrange L_Mesh L_Mesh5 L_Orient L_Orient2 L_Orient3.
Import ListNotations.
Local Close Scope Z_scope. Local Close Scope nat_scope. Local Open Scope R_scope.

(** C48, the geometry: whatever the nodes c, the map of the permuted cell is the old map after exchanging the first two parameters
    (x -> 1 - x in 1D, for symmetric nodes), and its Jacobian has the opposite sign. *)
Theorem C48_orientation_reversed : forall dim m n cell m' c, (1 <= dim)%nat -> valid dim (m_order m) (m_points m) (m_conn m) (m_wires m) ->
  length (m_conn m) = (n * m_order m ^ dim)%nat -> (cell < n)%nat -> permute_cell_directions dim m cell = Ret m' -> (dim = 1%nat -> symmetric_nodes (m_order m) c) ->
  let o := m_order m in let pts := group_points (o ^ dim) (m_points m) (m_conn m) cell in let pts' := group_points (o ^ dim) (m_points m') (m_conn m') cell in
  (forall xi comp, length xi = dim -> cell_map c dim o pts' xi comp = cell_map c dim o pts (flip_param xi) comp) /\
  (dim = 2%nat \/ dim = 3%nat -> forall xi, length xi = dim -> cell_jacobian c dim o pts' xi = - cell_jacobian c dim o pts (flip_param xi)) /\
  (dim = 1%nat -> forall x comp, cell_derivative c 1 o pts' [x] 0 comp = - cell_derivative c 1 o pts [1 - x] 0 comp).
Proof.
  intros dim m n cell m' c Hd Hv Hn Hc E Hs o pts pts'.
  destruct (permute_vm dim m n cell m' Hd Hv Hn Hc E) as (_ & Eo & _ & _ & _ & _ & Pf). unfold gp in Pf. rewrite Eo in Pf. fold o pts pts' in Pf. assert (Ho : (2 <= o)%nat) by apply Hv.
  split; [|split].
  - intros xi comp Hx. apply cell_map_flip; assumption.
  - intros Hdim xi Hx. apply cell_jacobian_flip; assumption.
  - intros -> x comp. apply cell_derivative_flip1; [assumption|apply Hs; reflexivity|assumption].
Qed.
Print Assumptions C48_orientation_reversed.

(** C49, the true part.  If default-constructed points were zero, every listed cell ends with a non-negative Jacobian determinant at its centre,
    for the map interpolating its points at the (Chebyshev) nodes cheb; a cell is changed only if it is listed and its determinant was negative, and
    then it is flipped; repeating the call changes nothing; ids out of range abort. *)
Theorem C49_orient_cells_partial : forall cheb fresh dim m n ids, dim = 2%nat \/ dim = 3%nat -> (forall k i, fresh k i = repeat 0 dim) ->
  valid dim (m_order m) (m_points m) (m_conn m) (m_wires m) -> length (m_conn m) = (n * m_order m ^ dim)%nat -> Forall (fun p => length p = dim) (m_points m) ->
  Forall (fun c => (c < n)%nat) ids ->
  let o := m_order m in let cell := fun m c => group_points (o ^ dim) (m_points m) (m_conn m) c in
  let J := fun m c => cell_jacobian (fun i => cheb i o) dim o (cell m c) (centre dim) in
  exists m', orient_cells_positively cheb fresh dim m ids = Ret m' /\
    m_order m' = o /\ m_points m' = m_points m /\ m_wires m' = m_wires m /\ length (m_conn m') = length (m_conn m) /\
    (forall c, ~ In c ids -> group_ids (o ^ dim) (m_conn m') c = group_ids (o ^ dim) (m_conn m) c) /\
    (forall c, In c ids -> 0 <= J m' c) /\
    (forall c, In c ids -> 0 <= J m c -> cell m' c = cell m c) /\
    (forall c t, In c ids -> J m c < 0 -> is_index dim o t -> nth (position o t) (cell m' c) [] = nth (position o (flip o t)) (cell m c) []) /\
    orient_cells_positively cheb fresh dim m' ids = Ret m'.
Proof.
  intros cheb fresh dim m n ids Hdim Hz Hv Hn Fp Fi o cell J. destruct (C49_proof cheb fresh dim m n ids Hdim Hz Hv Hn Fp Fi) as (m' & E & V & Eo & Ep & Ew & El & Pc & J1 & J2 & J3 & Id).
  unfold gp in J1, J2, J3. rewrite Eo in J1, J2, J3. exists m'. split; [exact E|]. split; [exact Eo|]. split; [exact Ep|]. split; [exact Ew|]. split; [exact El|]. split; [exact Pc|].
  split; [exact J1|]. split; [exact J2|]. split; [|exact Id]. intros c t Hc HJ Ht. destruct (J3 c Hc HJ) as [_ Hf]. apply Hf. exact Ht.
Qed.
Print Assumptions C49_orient_cells_partial.
(** Without a list of cells all of them are oriented. *)
Theorem C49_orient_all_partial : forall cheb fresh dim m n, dim = 2%nat \/ dim = 3%nat -> (forall k i, fresh k i = repeat 0 dim) ->
  valid dim (m_order m) (m_points m) (m_conn m) (m_wires m) -> length (m_conn m) = (n * m_order m ^ dim)%nat -> Forall (fun p => length p = dim) (m_points m) ->
  exists m', orient_all_cells_positively cheb fresh dim m = Ret m' /\ m_order m' = m_order m /\ m_points m' = m_points m /\ m_wires m' = m_wires m /\ length (m_conn m') = length (m_conn m) /\
    forall c, (c < n)%nat -> 0 <= cell_jacobian (fun i => cheb i (m_order m)) dim (m_order m) (group_points (m_order m ^ dim) (m_points m') (m_conn m') c) (centre dim).
Proof.
  intros cheb fresh dim m n Hdim Hz Hv Hn Fp. destruct (C49_orient_cells_partial cheb fresh dim m n (seq 0 n) Hdim Hz Hv Hn Fp) as (m' & E & Eo & Ep & Ew & El & _ & J1 & _).
  - rewrite Forall_forall. intros c Hc. apply in_seq in Hc. lia.
  - exists m'. unfold orient_all_cells_positively. rewrite (num_cells_ok dim m n); [|unfold pts_per_cell; apply pow_pos; apply Hv|exact Hn]. cbn [bind]. split; [exact E|]. split; [exact Eo|]. split; [exact Ep|]. split; [exact Ew|]. split; [exact El|].
    intros c Hc. apply J1. apply in_seq. lia.
Qed.
Print Assumptions C49_orient_all_partial.
Theorem C49_range_partial : forall cheb fresh dim m n c ids, valid dim (m_order m) (m_points m) (m_conn m) (m_wires m) -> length (m_conn m) = (n * m_order m ^ dim)%nat ->
  (n <= c)%nat -> orient_cells_positively cheb fresh dim m (c :: ids) = Abort.
Proof. exact orient_abort. Qed.
Print Assumptions C49_range_partial.
(** When the nodes of the mesh are the Chebyshev nodes (always for orders above 6) this is the Jacobian of the cell itself. *)
Theorem C49_mesh_nodes_partial : forall cheb fresh dim m n ids, dim = 2%nat \/ dim = 3%nat -> (forall k i, fresh k i = repeat 0 dim) ->
  valid dim (m_order m) (m_points m) (m_conn m) (m_wires m) -> length (m_conn m) = (n * m_order m ^ dim)%nat -> Forall (fun p => length p = dim) (m_points m) ->
  Forall (fun c => (c < n)%nat) ids -> ((m_order m <= 6)%nat -> forall i, (i < m_order m)%nat -> cheb i (m_order m) = equispaced (m_order m) i) ->
  exists m', orient_cells_positively cheb fresh dim m ids = Ret m' /\
    forall c, In c ids -> 0 <= cell_jacobian (fun i => if (m_order m <=? 6)%nat then equispaced (m_order m) i else cheb i (m_order m)) dim (m_order m)
                                 (group_points (m_order m ^ dim) (m_points m') (m_conn m') c) (centre dim).
Proof.
  intros cheb fresh dim m n ids Hdim Hz Hv Hn Fp Fi Hc. destruct (C49_orient_cells_partial cheb fresh dim m n ids Hdim Hz Hv Hn Fp Fi) as (m' & E & _ & _ & _ & _ & _ & J1 & _).
  exists m'. split; [exact E|]. intros c Hin. erewrite cell_jacobian_nodes; [apply (J1 c Hin)|destruct Hv; lia|]. intros i Hi. cbn beta. destruct (Nat.leb_spec (m_order m) 6); [rewrite Hc by assumption; reflexivity|reflexivity].
Qed.
Print Assumptions C49_mesh_nodes_partial.

(** C49 is false.  A unit square of order 2, positively oriented: with some indeterminate content of the default-constructed Jacobian it is flipped. *)
Definition square : mesh := mk_mesh 2 [[0; 0]; [1; 0]; [0; 1]; [1; 1]] [0; 1; 2; 3]%nat [].
Definition lin_nodes (i n : nat) : R := INR i.
Lemma Ret_inj {A} (a b : A) : Ret a = Ret b -> a = b. Proof. congruence. Qed.
Lemma square_ders : lagrange_derivative lin_nodes (repeat (1/2) 2) (tp_const 2 2) false = Ret [[-(1/2); 1/2; -(1/2); 1/2]; [-(1/2); -(1/2); 1/2; 1/2]].
Proof.
  assert (B : lagrange_basis_1D lin_nodes (1/2) 2 false = Ret [1/2; 1/2]).
  { unfold lagrange_basis_1D, get_coord, lin_nodes. cbn [Nat.ltb Nat.leb assert_]. f_equal. cbn. f_equal; [field|f_equal; field]. }
  assert (D : lagrange_der_1D lin_nodes (1/2) 2 false = Ret [-1; 1]).
  { unfold lagrange_der_1D, get_coord, lin_nodes. cbn [Nat.ltb Nat.leb assert_]. f_equal. cbn. f_equal; [field|f_equal; field]. }
  unfold lagrange_derivative. cbn [repeat tp_const map2M]. rewrite B, D. cbn [bind]. f_equal. unfold tensor_values. cbn. 
  f_equal; [|f_equal]; (f_equal; [field|f_equal; [field|f_equal; [field|f_equal; field]]]).
Qed.
Theorem C49_indeterminate_refuted : exists fresh m', (forall k i, length (fresh k i) = 2%nat) /\
  valid 2 (m_order square) (m_points square) (m_conn square) (m_wires square) /\
  cell_jacobian (equispaced 2) 2 2 (group_points 4 (m_points square) (m_conn square) 0) (centre 2) > 0 /\
  orient_cells_positively lin_nodes fresh 2 square [0%nat] = Ret m' /\
  cell_jacobian (equispaced 2) 2 2 (group_points 4 (m_points m') (m_conn m') 0) (centre 2) < 0.
Proof.
  assert (V : valid 2 (m_order square) (m_points square) (m_conn square) (m_wires square)).
  { split; [simpl; lia|]. split; [exists 1%nat; reflexivity|]. split; [exists 0%nat; reflexivity|]. split; [repeat constructor|constructor]. }
  assert (J : cell_jacobian (equispaced 2) 2 2 (group_points 4 (m_points square) (m_conn square) 0) (centre 2) = 1).
  { rewrite <- (det_ok (equispaced 2) 2 2 _ (centre 2)) by (left; reflexivity).
    assert (Z : zero_init 2 (fun _ _ => repeat 0 2)) by (intros ? ?; reflexivity).
    assert (D := decide_full lin_nodes (fun _ _ => repeat 0 2) 2 0 2 (group_points 4 (m_points square) (m_conn square) 0) (or_introl eq_refl) Z ltac:(lia) eq_refl ltac:(repeat constructor)).
    assert (EQ := square_ders). assert (EQ2 := ders_eq lin_nodes 2 2 ltac:(lia) (repeat (1/2) 2) eq_refl). rewrite EQ in EQ2. apply Ret_inj in EQ2.
    change (centre 2) with (repeat (1/2) 2) in D. rewrite <- EQ2 in D.
    rewrite det_ok by (left; reflexivity).
    rewrite (cell_jacobian_nodes (equispaced 2) (fun i => lin_nodes i 2)); [change (centre 2) with (repeat (1/2) 2); rewrite <- D|lia|intros j _; unfold equispaced, lin_nodes; simpl; field].
    unfold compute_determinant, ent, accumulate, group_points. cbn. field. }
  exists (fun _ i => match i with O => [-2; 0] | _ => [0; 0] end).
  destruct (C48_proof 2 square 1 0 ltac:(lia) V eq_refl) as [P _]. destruct (P ltac:(lia)) as (m' & E & _).
  destruct (C48_orientation_reversed 2 square 1 0 m' (equispaced 2) ltac:(lia) V eq_refl ltac:(lia) E ltac:(discriminate)) as (_ & Jf & _).
  exists m'. split; [intros k [|i]; reflexivity|]. split; [exact V|]. split; [rewrite J; lra|]. split.
  - unfold orient_cells_positively. change (m_order square) with 2%nat. rewrite square_ders. cbn [bind]. cbn [orient_loop].
    rewrite (num_cells_ok 2 square 1) by (unfold pts_per_cell; simpl; (lia || reflexivity)). cbn [bind]. rewrite assert_true by reflexivity.
    rewrite (cell_points_ok 2 square 1) by (exact V || reflexivity || lia). cbn [bind].
    replace (Rltb _ 0) with true; [rewrite E; reflexivity|]. symmetry. apply Rltb_true. unfold compute_determinant, ent, accumulate, gp, group_points. cbn. lra.
  - specialize (Jf (or_introl eq_refl) (centre 2) eq_refl). rewrite flip_centre in Jf. change (m_order square ^ 2)%nat with 4%nat in Jf. change (m_order square) with 2%nat in Jf. rewrite J in Jf. rewrite Jf. lra.
Qed.
Print Assumptions C49_indeterminate_refuted.

(** C49 is also false because of the nodes, even if default-constructed points were zero.  A cell of order 4 (the mesh uses equispaced nodes) whose Jacobian
    determinant is positive at the centre is flipped, because the code differentiates with the Chebyshev nodes 0, 1/4, 3/4, 1. *)
Definition bent : mesh := mk_mesh 4 (map (fun k => [nth (k mod 4) [0; 9/2; 11/2; 10] 0; INR (k / 4)]) (seq 0 16)) (seq 0 16) [].
Definition cheb4 (i n : nat) : R := nth i [0; 1/4; 3/4; 1] 0.
Lemma ders4 (cheb : nat -> nat -> R) B D : lagrange_basis_1D cheb (1/2) 4 false = Ret B -> lagrange_der_1D cheb (1/2) 4 false = Ret D ->
  lagrange_derivative cheb (repeat (1/2) 2) (tp_const 2 4) false = Ret [tensor_values [4; 4]%nat [D; B]; tensor_values [4; 4]%nat [B; D]].
Proof. intros HB HD. unfold lagrange_derivative. cbn [repeat tp_const map2M]. rewrite HB, HD. reflexivity. Qed.
Lemma jac4 cheb B D pts : lagrange_basis_1D cheb (1/2) 4 false = Ret B -> lagrange_der_1D cheb (1/2) 4 false = Ret D -> length pts = 16%nat -> Forall (fun p => length p = 2%nat) pts ->
  cell_jacobian (fun i => cheb i 4%nat) 2 4 pts (centre 2) =
  compute_determinant 2 [accumulate (tensor_values [4; 4]%nat [D; B]) pts [0; 0]; accumulate (tensor_values [4; 4]%nat [B; D]) pts [0; 0]].
Proof.
  intros HB HD HL HF. assert (E1 := ders4 cheb B D HB HD). assert (E2 := ders_eq cheb 2 4 ltac:(lia) (repeat (1/2) 2) eq_refl). rewrite E1 in E2. apply Ret_inj in E2.
  assert (Z : zero_init 2 (fun _ _ => repeat 0 2)) by (intros ? ?; reflexivity).
  rewrite <- (decide_full cheb (fun _ _ => repeat 0 2) 2 0 4 pts (or_introl eq_refl) Z ltac:(lia) HL HF). change (centre 2) with (repeat (1/2) 2). rewrite <- E2. reflexivity.
Qed.
Lemma cheb4_basis : lagrange_basis_1D cheb4 (1/2) 4 false = Ret [-(1/6); 2/3; 2/3; -(1/6)].
Proof. unfold lagrange_basis_1D, get_coord, cheb4. cbn [Nat.ltb Nat.leb assert_]. f_equal. cbn. f_equal; [field|f_equal; [field|f_equal; [field|f_equal; field]]]. Qed.
Lemma cheb4_der : lagrange_der_1D cheb4 (1/2) 4 false = Ret [1/3; -(8/3); 8/3; -(1/3)].
Proof. unfold lagrange_der_1D, get_coord, cheb4. cbn [Nat.ltb Nat.leb assert_]. f_equal. cbn. f_equal; [field|f_equal; [field|f_equal; [field|f_equal; field]]]. Qed.
Definition equi' (i n : nat) : R := equispaced n i.
Lemma equi4_basis : lagrange_basis_1D equi' (1/2) 4 false = Ret [-(1/16); 9/16; 9/16; -(1/16)].
Proof. unfold lagrange_basis_1D, get_coord, equi', equispaced. cbn [Nat.ltb Nat.leb assert_]. f_equal. cbn. f_equal; [field|f_equal; [field|f_equal; [field|f_equal; field]]]. Qed.
Lemma equi4_der : lagrange_der_1D equi' (1/2) 4 false = Ret [1/8; -(27/8); 27/8; -(1/8)].
Proof. unfold lagrange_der_1D, get_coord, equi', equispaced. cbn [Nat.ltb Nat.leb assert_]. f_equal. cbn. f_equal; [field|f_equal; [field|f_equal; [field|f_equal; field]]]. Qed.
Lemma bent_length : length (group_points 16 (m_points bent) (m_conn bent) 0) = 16%nat. Proof. reflexivity. Qed.
Lemma bent_range : Forall (fun p => length p = 2%nat) (group_points 16 (m_points bent) (m_conn bent) 0). Proof. repeat constructor. Qed.
Lemma bent_cheb : cell_jacobian (fun i => cheb4 i 4%nat) 2 4 (group_points 16 (m_points bent) (m_conn bent) 0) (centre 2) = -(10/9).
Proof.
  rewrite (jac4 cheb4 _ _ _ cheb4_basis cheb4_der bent_length bent_range). unfold compute_determinant, ent, accumulate, group_points, bent. cbn -[INR Nat.modulo Nat.div].
  cbn. field.
Qed.
Lemma bent_equi : cell_jacobian (equispaced 4) 2 4 (group_points 16 (m_points bent) (m_conn bent) 0) (centre 2) = 51/8.
Proof.
  change (equispaced 4) with (fun i => equi' i 4). rewrite (jac4 equi' _ _ _ equi4_basis equi4_der bent_length bent_range). unfold compute_determinant, ent, accumulate, group_points, bent. cbn. field.
Qed.
Theorem C49_nodes_refuted : exists m', distinct_nodes 4 (fun i => cheb4 i 4%nat) /\ valid 2 (m_order bent) (m_points bent) (m_conn bent) (m_wires bent) /\
  cell_jacobian (equispaced 4) 2 4 (group_points 16 (m_points bent) (m_conn bent) 0) (centre 2) > 0 /\
  orient_cells_positively cheb4 (fun _ _ => repeat 0 2) 2 bent [0%nat] = Ret m' /\
  cell_jacobian (equispaced 4) 2 4 (group_points 16 (m_points m') (m_conn m') 0) (centre 2) < 0.
Proof.
  assert (V : valid 2 (m_order bent) (m_points bent) (m_conn bent) (m_wires bent)).
  { split; [simpl; lia|]. split; [exists 1%nat; reflexivity|]. split; [exists 0%nat; reflexivity|]. split; [repeat constructor|constructor]. }
  destruct (C49_proof cheb4 (fun _ _ => repeat 0 2) 2 bent 1 [0%nat] (or_introl eq_refl) ltac:(intros ? ?; reflexivity) V eq_refl ltac:(repeat constructor) ltac:(repeat constructor))
    as (m' & E & _ & Eo & Ep & _ & _ & _ & _ & _ & J3 & _).
  exists m'. split; [|split; [exact V|split; [rewrite bent_equi; lra|split; [exact E|]]]].
  - intros i j Hi Hj Hne. unfold cheb4. destruct i as [|[|[|[|i]]]]; destruct j as [|[|[|[|j]]]]; simpl; try lia; lra.
  - assert (HJ : cell_jacobian (fun i => cheb4 i (m_order bent)) 2 (m_order bent) (gp 2 bent 0) (centre 2) < 0) by (change (m_order bent) with 4%nat; change (gp 2 bent 0) with (group_points 16 (m_points bent) (m_conn bent) 0); rewrite bent_cheb; lra).
    specialize (J3 0%nat (or_introl eq_refl) HJ). unfold gp in J3. rewrite Eo in J3. change (m_order bent ^ 2)%nat with 16%nat in J3. change (m_order bent) with 4%nat in J3.
    rewrite (cell_jacobian_flip (equispaced 4) 2 4 _ _ (centre 2) (or_introl eq_refl) ltac:(lia) eq_refl J3). rewrite flip_centre, bent_equi. lra.
Qed.
Print Assumptions C49_nodes_refuted.

(** C83: the statement shared by the two functions.  [target c m] is the direction wanted for cell c: afterwards the normal of every listed cell at its centre
    has a non-negative inner product with it, cells that had it are untouched, the others flipped, the rest of the mesh is unchanged. *)
Definition oriented_along (c : nat -> R) (dim : nat) (m m' : mesh) (ids : list nat) (target : list R -> list R) : Prop :=
  let o := m_order m in let cell := fun m k => group_points (o ^ dim) (m_points m) (m_conn m) k in
  let agreement := fun m k => inner (geometric_normal c dim o (cell m k) (centre dim)) (target (map (cell_map c dim o (cell m k) (centre dim)) (seq 0 (S dim)))) in
  m_order m' = o /\ m_points m' = m_points m /\ m_wires m' = m_wires m /\ length (m_conn m') = length (m_conn m) /\
  (forall k, ~ In k ids -> group_ids (o ^ dim) (m_conn m') k = group_ids (o ^ dim) (m_conn m) k) /\
  (forall k, In k ids -> 0 <= agreement m' k) /\
  (forall k, In k ids -> 0 <= agreement m k -> cell m' k = cell m k) /\
  (forall k t, In k ids -> agreement m k < 0 -> is_index dim o t -> nth (position o t) (cell m' k) [] = nth (position o (flip o t)) (cell m k) []).

Lemma oriented_along_ok cheb fresh dim m n ids target target' : dim = 1%nat \/ dim = 2%nat -> (forall k i, fresh k i = repeat 0 (S dim)) ->
  valid dim (m_order m) (m_points m) (m_conn m) (m_wires m) -> length (m_conn m) = (n * m_order m ^ dim)%nat -> Forall (fun p => length p = S dim) (m_points m) ->
  Forall (fun c => (c < n)%nat) ids -> (dim = 1%nat -> symmetric_nodes (m_order m) (fun i => cheb i (m_order m))) ->
  (forall p, length p = S dim -> length (target' p) = S dim) ->
  (forall v p, length v = S dim -> length p = S dim -> (0 <= dot_v v (target p) <-> 0 <= dot_v v (target' p))) ->
  exists m', orient_levelset_with cheb fresh dim m ids target = Ret m' /\ oriented_along (fun i => cheb i (m_order m)) dim m m' ids target' /\
    orient_levelset_with cheb fresh dim m' ids target = Ret m'.
Proof.
  intros Hdim Hz Hv Hn Fp Fi Hs Ht Heq. destruct (C83_proof cheb fresh dim m n ids target Hdim Hz Hv Hn Fp Fi Hs) as (m' & E & V & Eo & Ep & Ew & El & Pc & J1 & J2 & J3 & Id).
  unfold gp, cell_centre in J1, J2, J3. rewrite Eo in J1, J2, J3.
  assert (HH : forall pts, let g := geometric_normal (fun i => cheb i (m_order m)) dim (m_order m) pts (centre dim) in
      let p := map (cell_map (fun i => cheb i (m_order m)) dim (m_order m) pts (centre dim)) (seq 0 (S dim)) in 0 <= dot_v g (target p) <-> 0 <= inner g (target' p)).
  { intros pts g p. assert (Lg : length g = S dim) by (apply normal_length; assumption). assert (Lp : length p = S dim) by (unfold p; rewrite map_length, seq_length; reflexivity).
    rewrite <- dot_v_inner by (rewrite Lg, Ht by exact Lp; reflexivity). apply Heq; assumption. }
  exists m'. split; [exact E|]. split; [|exact Id]. unfold oriented_along. split; [exact Eo|]. split; [exact Ep|]. split; [exact Ew|]. split; [exact El|]. split; [exact Pc|].
  split; [|split].
  - intros k Hk. apply HH. apply J1. exact Hk.
  - intros k Hk Hp. apply J2; [exact Hk|]. apply HH. exact Hp.
  - intros k t Hk Hp Hi. destruct (J3 k Hk) as [_ Hf]; [|apply Hf; exact Hi].
    apply Rnot_le_lt. intros Hc. apply HH in Hc. lra.
Qed.

(** C83 for level sets: the wanted direction is the gradient of the function with the smallest value at the centre of the cell. *)
Theorem C83_levelset_partial : forall cheb fresh dim m n ids f fs, dim = 1%nat \/ dim = 2%nat -> (forall k i, fresh k i = repeat 0 (S dim)) ->
  valid dim (m_order m) (m_points m) (m_conn m) (m_wires m) -> length (m_conn m) = (n * m_order m ^ dim)%nat -> Forall (fun p => length p = S dim) (m_points m) ->
  Forall (fun c => (c < n)%nat) ids -> (dim = 1%nat -> symmetric_nodes (m_order m) (fun i => cheb i (m_order m))) ->
  (forall g p, In g (f :: fs) -> length p = S dim -> length (snd g p) = S dim) ->
  exists m' selected, orient_levelset cheb fresh dim m (f :: fs) ids = Ret m' /\
    (forall p, In (selected p) (f :: fs) /\ forall g, In g (f :: fs) -> fst (selected p) p <= fst g p) /\
    oriented_along (fun i => cheb i (m_order m)) dim m m' ids (fun p => snd (selected p) p) /\
    orient_levelset cheb fresh dim m' (f :: fs) ids = Ret m'.
Proof.
  intros cheb fresh dim m n ids f fs Hdim Hz Hv Hn Fp Fi Hs Hg. pose (sel := fun p => min_element (fun g : (list R -> R) * (list R -> list R) => fst g p) f fs).
  assert (Hsel : forall p, In (sel p) (f :: fs) /\ forall g, In g (f :: fs) -> fst (sel p) p <= fst g p) by (intros p; apply (min_element_ok (fun g => fst g p))).
  destruct (oriented_along_ok cheb fresh dim m n ids (fun p => normalize (snd (sel p) p)) (fun p => snd (sel p) p) Hdim Hz Hv Hn Fp Fi Hs) as (m' & E & P & Id).
  - intros p Hp. apply Hg; [apply Hsel|exact Hp].
  - intros v p _ _. apply normalized_sign_r.
  - exists m', sel. split; [exact E|]. split; [exact Hsel|]. split; [exact P|exact Id].
Qed.
Print Assumptions C83_levelset_partial.
(** C83 for facets: the wanted direction of facet 2 d + s is minus (s = 0) or plus (s = 1) the coordinate direction d. *)
Theorem C83_facet_partial : forall cheb fresh dim m n ids d s, dim = 1%nat \/ dim = 2%nat -> (forall k i, fresh k i = repeat 0 (S dim)) ->
  valid dim (m_order m) (m_points m) (m_conn m) (m_wires m) -> length (m_conn m) = (n * m_order m ^ dim)%nat -> Forall (fun p => length p = S dim) (m_points m) ->
  Forall (fun c => (c < n)%nat) ids -> (dim = 1%nat -> symmetric_nodes (m_order m) (fun i => cheb i (m_order m))) ->
  (d <= dim)%nat -> (s <= 1)%nat ->
  exists m', orient_facet cheb fresh dim m (2 * Z.of_nat d + Z.of_nat s) ids = Ret m' /\
    oriented_along (fun i => cheb i (m_order m)) dim m m' ids (fun _ => map (fun i => if (i =? d)%nat then (if (s =? 0)%nat then -1 else 1) else 0) (seq 0 (S dim))) /\
    orient_facet cheb fresh dim m' (2 * Z.of_nat d + Z.of_nat s) ids = Ret m'.
Proof.
  intros cheb fresh dim m n ids d s Hdim Hz Hv Hn Fp Fi Hs Hd Hsd.
  set (nv := map (fun i => if (i =? d)%nat then (if (s =? 0)%nat then -1 else 1) else 0) (seq 0 (S dim))).
  assert (Eq : forall mm, orient_facet cheb fresh dim mm (2 * Z.of_nat d + Z.of_nat s) ids = orient_levelset_with cheb fresh dim mm ids (fun _ => nv)).
  { intros mm. unfold orient_facet. rewrite assert_true by (apply andb_true_intro; split; [apply Z.leb_le|apply Z.ltb_lt]; lia).
    unfold facet_const_dir, facet_side. rewrite !assert_true by (apply andb_true_intro; split; [apply Z.leb_le|apply Z.ltb_lt]; lia). cbn [bind].
    replace ((2 * Z.of_nat d + Z.of_nat s) / 2)%Z with (Z.of_nat d) by (apply Z.div_unique with (Z.of_nat s); lia).
    replace ((2 * Z.of_nat d + Z.of_nat s) mod 2)%Z with (Z.of_nat s) by (apply Z.mod_unique with (Z.of_nat d); lia).
    rewrite Nat2Z.id. f_equal. unfold nv. destruct Hdim as [-> | ->]; destruct d as [|[|[|d]]]; try lia; destruct s as [|[|s]]; try lia; reflexivity. }
  destruct (oriented_along_ok cheb fresh dim m n ids (fun _ => nv) (fun _ => nv) Hdim Hz Hv Hn Fp Fi Hs) as (m' & E & P & Id).
  - intros p Hp. unfold nv. rewrite map_length, seq_length. reflexivity.
  - intros; tauto.
  - exists m'. rewrite !Eq. split; [exact E|]. split; [exact P|exact Id].
Qed.
Print Assumptions C83_facet_partial.
Theorem C83_facet_id_partial : forall cheb fresh dim m facet ids, (facet < 0 \/ 2 * (Z.of_nat dim + 1) <= facet)%Z -> orient_facet cheb fresh dim m facet ids = Abort.
Proof.
  intros cheb fresh dim m facet ids H. unfold orient_facet. replace ((0 <=? facet)%Z && _)%bool with false; [reflexivity|]. symmetry. apply andb_false_iff.
  destruct H; [left; apply Z.leb_gt; lia|right; apply Z.ltb_ge; lia].
Qed.
Print Assumptions C83_facet_id_partial.
(** C83 is false for the same reason as C49, and with no function at all the call is undefined. *)
Theorem C83_empty_refuted : forall cheb fresh dim m c ids, orient_levelset cheb fresh dim m [] (c :: ids) = UB.
Proof. reflexivity. Qed.

(** The hypotheses are met: a square patch in space, oriented downwards, facet 5 (top) of the third direction. *)
Definition patch : mesh := mk_mesh 2 [[0; 0; 1]; [0; 1; 1]; [1; 0; 1]; [1; 1; 1]] [0; 1; 2; 3]%nat [].
Example patch_meets : exists m', orient_facet lin_nodes (fun _ _ => repeat 0 3) 2 patch 5 [0%nat] = Ret m' /\
  oriented_along (fun i => lin_nodes i 2) 2 patch m' [0%nat] (fun _ => [0; 0; 1]).
Proof.
  destruct (C83_facet_partial lin_nodes (fun _ _ => repeat 0 3) 2 patch 1 [0%nat] 2 1 (or_intror eq_refl) ltac:(reflexivity)) as (m' & E & P & _).
  - split; [simpl; lia|]. split; [exists 1%nat; reflexivity|]. split; [exists 0%nat; reflexivity|]. split; [repeat constructor|constructor].
  - reflexivity.
  - repeat constructor.
  - repeat constructor.
  - discriminate.
  - lia.
  - lia.
  - exists m'. split; [exact E|exact P].
Qed.
