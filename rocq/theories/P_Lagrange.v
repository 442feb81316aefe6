(** Theorems for Lagrange bases (C62). *)
From Coq Require Import Reals List Lia Lra.
From Coquelicot Require Import Coquelicot.
From Verif Require Import M_Lagrange M_Poly S_Poly S_Lagrange S_Affine L_Real L_Poly4 L_TensorNat L_Lagrange.
Import ListNotations.
Local Close Scope Z_scope.
Local Open Scope R_scope.

(** The nodes the code uses: equispaced for [chebyshev = true], algoim's modified Chebyshev nodes for [chebyshev = false]. *)
Definition used_nodes (cheb : nat -> nat -> R) (chebyshev : bool) (n i : nat) : R := if chebyshev then equispaced n i else cheb i n.

(** C62, one direction: the basis reproduces every polynomial of degree < n from its values at the nodes, is one at its own node and
    zero at the others, sums to one, and the derivative routine returns its derivative. *)
Theorem C62_basis_1D_partial : forall cheb chebyshev n, (1 < n)%nat -> distinct_nodes n (used_nodes cheb chebyshev n) ->
  exists f f' : R -> list R, (forall x, lagrange_basis_1D cheb x n chebyshev = Ret (f x)) /\ (forall x, lagrange_der_1D cheb x n chebyshev = Ret (f' x)) /\
  interpolates n (used_nodes cheb chebyshev n) f /\ cardinal n (used_nodes cheb chebyshev n) f /\ (forall x, sum_n n (fun i => nth i (f x) 0) = 1) /\
  (forall x, length (f' x) = n) /\ forall i (x : R), (i < n)%nat -> is_derive (fun x => nth i (f x) 0) x (nth i (f' x) 0).
Proof.
  intros cheb flag n Hn Hd. exists (lag_vec (get_coord cheb n flag) n), (dlag_vec (get_coord cheb n flag) n).
  split; [intros; apply basis_1D_eq; assumption|]. split; [intros; apply der_1D_eq; assumption|].
  assert (E : forall i, used_nodes cheb flag n i = get_coord cheb n flag i) by (intros; destruct flag; reflexivity).
  assert (Hd' : distinct_nodes n (get_coord cheb n flag)) by (eapply distinct_ext; [intros; apply E|exact Hd]).
  assert (I1 : interpolates n (used_nodes cheb flag n) (lag_vec (get_coord cheb n flag) n)).
  { intros x. destruct (interp_lag _ _ Hd' x) as [A B]. split; [assumption|]. intros a La. rewrite <- (B a La). reflexivity. }
  split; [exact I1|]. split; [intros i j Hi Hj; rewrite E; apply (cardinal_lag _ _ Hd'); assumption|]. split; [|split].
  - intros x. destruct (I1 x) as [_ B]. specialize (B [1]). simpl length in B. specialize (B ltac:(lia)). replace 1 with (poly_value [1] x) by (simpl; ring). rewrite <- B.
    unfold sum_n. f_equal. apply map_ext. intros i. simpl. ring.
  - intros x. apply dlag_vec_length.
  - intros i x Hi. rewrite dlag_vec_nth by assumption. apply (is_derive_ext (fun x => Lg (get_coord cheb n flag) n i x)); [intros; symmetry; apply lag_vec_nth; assumption|apply Lg_derive].
Qed.
Print Assumptions C62_basis_1D_partial.
(** The order must be at least two. *)
Theorem C62_order_partial : forall cheb chebyshev n x, (n <= 1)%nat -> lagrange_basis_1D cheb x n chebyshev = Abort /\ lagrange_der_1D cheb x n chebyshev = Abort.
Proof.
  intros cheb flag n x Hn. unfold lagrange_basis_1D, lagrange_der_1D, assert_. destruct (Nat.ltb_spec 1 n); [lia|]. split; reflexivity.
Qed.
Print Assumptions C62_order_partial.
(** C62, tensor products: one value per tensor index, in the order of the flat indices; every tensor-product polynomial of the given order
    is reproduced from its values at the tensor nodes; cardinality; the derivatives are the partial derivatives. *)
Theorem C62_tensor_partial : forall cheb chebyshev o, Forall (fun n => (1 < n)%nat) o -> Forall (fun n => distinct_nodes n (used_nodes cheb chebyshev n)) o ->
  exists (F : list R -> list R) (G : list R -> list (list R)),
  (forall x, length x = length o -> lagrange_basis cheb x o chebyshev = Ret (F x) /\ lagrange_derivative cheb x o chebyshev = Ret (G x) /\
     length (F x) = tp_size o /\ length (G x) = length o /\ (forall d, (d < length o)%nat -> length (nth d (G x) []) = tp_size o)) /\
  let node t := map (fun d => used_nodes cheb chebyshev (nth d o O) (nth d t O)) (seq 0 (length o)) in
  (forall p x, valid_poly p -> p_order p = o -> length x = length o ->
     fold_right Rplus 0 (map (fun t => expansion monomial p (node t) * nth (tp_flat o t) (F x) 0) (tp_all o)) = expansion monomial p x) /\
  (forall t u, In t (tp_all o) -> In u (tp_all o) -> nth (tp_flat o t) (F (node u)) 0 = if list_eq_dec Nat.eq_dec t u then 1 else 0) /\
  (forall t x, In t (tp_all o) -> length x = length o ->
     has_gradient (length o) (fun y => nth (tp_flat o t) (F y) 0) x (map (fun d => nth (tp_flat o t) (nth d (G x) []) 0) (seq 0 (length o)))).
Proof.
  intros cheb flag o Ho Hd. exists (Fx cheb flag o), (Gx cheb flag o). split.
  - intros x Hx. split; [apply basis_eq; assumption|]. split; [apply derivative_eq; assumption|]. split; [apply Fx_length|]. apply Gx_length.
  - cbn zeta.
    assert (E : forall n i, used_nodes cheb flag n i = get_coord cheb n flag i) by (intros; destruct flag; reflexivity).
    assert (EN : forall t, map (fun d => used_nodes cheb flag (nth d o O) (nth d t O)) (seq 0 (length o)) = node cheb flag o t) by (intros t; apply map_ext; intros d; apply E).
    assert (Hc : forall d, (d < length o)%nat -> distinct_nodes (nth d o O) (cnode cheb flag o d)).
    { intros d Hdl. rewrite Forall_forall in Hd. eapply distinct_ext; [intros; apply E|]. apply Hd, nth_In. assumption. }
    split; [|split].
    + intros p x Hp Eo Hx. rewrite <- (tensor_reproduces cheb flag o Hc p x Hp Eo Hx). unfold L_Poly.rsum. reflexivity.
    + intros t u Ht Hu. rewrite EN. apply tensor_cardinal; assumption.
    + intros t x Ht Hx. apply tensor_gradient; assumption.
Qed.
Print Assumptions C62_tensor_partial.
(** C62, the choice of the nodes, is false: the flag is inverted.  With [chebyshev = true] the basis is cardinal at the equispaced nodes and
    at no others; with [chebyshev = false] at the Chebyshev nodes and at no others. *)
Theorem C62_flag_refuted : forall cheb n, (1 < n)%nat -> distinct_nodes n (fun i => cheb i n) -> exists f g : R -> list R,
  (forall x, lagrange_basis_1D cheb x n true = Ret (f x) /\ lagrange_basis_1D cheb x n false = Ret (g x)) /\
  (forall c, cardinal n c f <-> forall i, (i < n)%nat -> c i = equispaced n i) /\
  (forall c, cardinal n c g <-> forall i, (i < n)%nat -> c i = cheb i n).
Proof.
  intros cheb n Hn Hd. exists (lag_vec (equispaced n) n), (lag_vec (fun i => cheb i n) n). split; [|split].
  - intros x. split; [apply (basis_1D_eq cheb x n true Hn)|apply (basis_1D_eq cheb x n false Hn)].
  - intros c. apply cardinal_unique; [assumption|apply equi_distinct; assumption].
  - intros c. apply cardinal_unique; assumption.
Qed.
Print Assumptions C62_flag_refuted.

(** ** The hypotheses are met: equispaced nodes are always distinct, and Chebyshev-like nodes exist. *)
Example C62_equi : Forall (fun n => (1 < n)%nat) [2%nat; 4%nat] /\ forall cheb, Forall (fun n => distinct_nodes n (used_nodes cheb true n)) [2%nat; 4%nat].
Proof. split; [repeat constructor|]. intros cheb. constructor; [apply equi_distinct; lia|]. constructor; [apply equi_distinct; lia|constructor]. Qed.
Example C62_cheb : distinct_nodes 4 (fun i => nth i [0; /4; 3/4; 1] 0).
Proof. intros i j Hi Hj Hne. destruct i as [|[|[|[|i]]]]; destruct j as [|[|[|[|j]]]]; simpl; try lia; lra. Qed.
(** The midpoint of two nodes has both basis values 1/2. *)
Example C62_mid : forall cheb, lagrange_basis_1D cheb (1/2) 2 true = Ret [1/2; 1/2].
Proof.
  intros cheb. unfold lagrange_basis_1D, get_coord. cbn [Nat.ltb Nat.leb assert_]. f_equal. cbn. f_equal; [field|f_equal; field].
Qed.
