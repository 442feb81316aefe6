(** Property C83: facets, when default-constructed points are not zero. *)
From Coq Require Import Reals List Lia Lra Arith ZArith.
From Coquelicot Require Import Coquelicot.
From Verif Require Import M_Orient S_Orient S_Lagrange S_Mesh S_Affine L_Real L_Point L_Poly L_Poly2 L_Poly4 L_TensorNat L_Lagrange L_Mesh L_Mesh5 L_Orient L_Orient2 L_Orient3 P_Orient.
Import ListNotations.
Local Close Scope Z_scope. Local Close Scope nat_scope. Local Open Scope R_scope.

(** The upper side of the unit square, traversed from right to left: its normal is (0, 1). *)
Definition top_side : mesh := mk_mesh 2 [[1; 1]; [0; 1]] [0; 1]%nat [].
Lemma seg_tangent pts comp : cell_derivative (fun i => lin_nodes i 2) 1 2 pts (centre 1) 0 comp = nth comp (nth 1 pts []) 0 - nth comp (nth 0 pts []) 0.
Proof.
  unfold cell_derivative. set (a := nth comp (nth 0 pts []) 0). set (b := nth comp (nth 1 pts []) 0).
  rewrite (Derive_ext _ (fun s => a + (b - a) * s)).
  - apply is_derive_unique. auto_derive; [exact I|ring].
  - intros s. unfold cell_map. cbn [Nat.pow Nat.mul Nat.add]. unfold lin_nodes. cbn. fold a b. unfold lagrange, lin_nodes. cbn. field.
Qed.
Lemma seg_normal pts : geometric_normal (fun i => lin_nodes i 2) 1 2 pts (centre 1) =
  [nth 1 (nth 1 pts []) 0 - nth 1 (nth 0 pts []) 0; - (nth 0 (nth 1 pts []) 0 - nth 0 (nth 0 pts []) 0)].
Proof. unfold geometric_normal, tangent. cbn [seq map nth]. rewrite !seg_tangent. reflexivity. Qed.
(** impl_reparam_mesh.cpp 245-262 add the derivatives to default-constructed points.  With the content (5, 0) of the memory a side that is oriented outwards is
    turned inwards, for the facet 3 (the upper one). *)
Theorem C83_indeterminate_refuted : exists fresh m', (forall k i, length (fresh k i) = 2%nat) /\
  valid 1 (m_order top_side) (m_points top_side) (m_conn top_side) (m_wires top_side) /\
  geometric_normal (fun i => lin_nodes i 2) 1 2 (group_points 2 (m_points top_side) (m_conn top_side) 0) (centre 1) = [0; 1] /\
  orient_facet lin_nodes fresh 1 top_side 3 [0%nat] = Ret m' /\
  geometric_normal (fun i => lin_nodes i 2) 1 2 (group_points 2 (m_points m') (m_conn m') 0) (centre 1) = [0; -1].
Proof.
  exists (fun _ _ => [5; 0]), (mk_mesh 2 [[1; 1]; [0; 1]] [1; 0]%nat []).
  assert (B : lagrange_basis_1D lin_nodes (1/2) 2 false = Ret [1/2; 1/2]).
  { unfold lagrange_basis_1D, get_coord, lin_nodes. cbn [Nat.ltb Nat.leb assert_]. f_equal. cbn. f_equal; [field|f_equal; field]. }
  assert (D : lagrange_der_1D lin_nodes (1/2) 2 false = Ret [-1; 1]).
  { unfold lagrange_der_1D, get_coord, lin_nodes. cbn [Nat.ltb Nat.leb assert_]. f_equal. cbn. f_equal; [field|f_equal; field]. }
  split; [reflexivity|]. split.
  { split; [simpl; lia|]. split; [exists 1%nat; reflexivity|]. split; [exists 0%nat; reflexivity|]. split; [repeat constructor|constructor]. }
  split; [rewrite seg_normal; cbn; repeat (apply (f_equal2 cons); [ring|]); reflexivity|]. split.
  - unfold orient_facet. rewrite assert_true by reflexivity. unfold facet_const_dir, facet_side. rewrite !assert_true by reflexivity. cbn [bind].
    change (Z.to_nat (3 / 2)) with 1%nat. change (3 mod 2 =? 0)%Z with false. cbv iota. unfold orient_levelset_with. change (m_order top_side) with 2%nat.
    unfold lagrange_basis, lagrange_derivative. cbn [repeat tp_const map2M]. rewrite B, D. cbn [bind]. unfold tensor_values. cbn [orient_loop]. 
    change (M_Mesh.num_cells 1 top_side) with (Ret 1%nat). cbn [bind]. rewrite assert_true by reflexivity. change (cell_points 1 top_side 0) with (Ret [[1; 1]; [0; 1]]). cbn [bind].
    match goal with |- context [if Rltb ?x 0 then _ else _] => replace (Rltb x 0) with true end.
    + reflexivity.
    + symmetry. apply Rltb_true. cbn. unfold dot_v, normalize. cbn.
      match goal with |- context [?n / vec_norm ?v] => set (N := vec_norm v) end.
      assert (HN : 0 < N).
      { unfold N, vec_norm. apply sqrt_lt_R0. cbn. lra. }
      replace (0 + (0 + 1 * (1 * -1) + 1 * (1 * 1)) / N * 0 + - (5 + 1 * (1 * -1) + 0 * (1 * 1)) / N * 1) with (- (4 / N)) by (field; lra).
      assert (0 < 4 / N) by (apply Rdiv_lt_0_compat; lra). lra.
  - rewrite seg_normal. cbn. repeat (apply (f_equal2 cons); [ring|]). reflexivity.
Qed.
Print Assumptions C83_indeterminate_refuted.
