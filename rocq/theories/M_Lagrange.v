(** Model of cpp/qugar/lagrange_tp_utils.cpp. *)
From Verif Require Export M_Real M_TensorNat M_Point.
Close Scope Z_scope.
Open Scope R_scope.

(** lagrange_tp_utils.cpp 46-51, 72-77: get_coord.  [cheb ind order] stands for algoim's modifiedChebyshevNode (external).  The two
    branches are as in the source: with [chebyshev] true the nodes are the equispaced ones. *)
Definition get_coord (cheb : nat -> nat -> R) (order : nat) (chebyshev : bool) (ind : nat) : R :=
  if chebyshev then INR ind / INR (order - 1) else cheb ind order.
(** lagrange_tp_utils.cpp 39-62: evaluate_Lagrange_basis_1D. *)
Definition lagrange_basis_1D (cheb : nat -> nat -> R) (point : R) (order : nat) (chebyshev : bool) : outcome (list R) :=
  let c := get_coord cheb order chebyshev in
  assert_ (1 <? order)%nat (Ret (map (fun i =>
    fold_left (fun product j => if (i =? j)%nat then product else product * ((point - c j) / (c i - c j))) (seq 0 order) 1) (seq 0 order))).
(** lagrange_tp_utils.cpp 65-95: evaluate_Lagrange_basis_der_1D. *)
Definition lagrange_der_1D (cheb : nat -> nat -> R) (point : R) (order : nat) (chebyshev : bool) : outcome (list R) :=
  let c := get_coord cheb order chebyshev in
  assert_ (1 <? order)%nat (Ret (map (fun i =>
    fold_left (fun product j => if (i =? j)%nat then product else
        product + fold_left (fun term k => if ((k =? i) || (k =? j))%nat then term else term * ((point - c k) / (c i - c k))) (seq 0 order) (1 / (c i - c j)))
      (seq 0 order) 0) (seq 0 order))).
(** lagrange_tp_utils.cpp 110-119, 137-153: the product over the directions; the entries are written in the order of the range loop,
    which is the order of the flat indices. *)
Definition tensor_values (order : list nat) (dirs : list (list R)) : list R :=
  map (fun tid => fold_left (fun val dir => val * nth (nth dir tid O) (nth dir dirs []) 0) (seq 0 (length order)) 1) (tp_all order).
(** lagrange_tp_utils.cpp 98-120: evaluate_Lagrange_basis. *)
Definition lagrange_basis (cheb : nat -> nat -> R) (point : list R) (order : list nat) (chebyshev : bool) : outcome (list R) :=
  basis_dir <- map2M (fun x n => lagrange_basis_1D cheb x n chebyshev) point order ;;
  Ret (tensor_values order basis_dir).
(** lagrange_tp_utils.cpp 122-154: evaluate_Lagrange_derivative. *)
Definition lagrange_derivative (cheb : nat -> nat -> R) (point : list R) (order : list nat) (chebyshev : bool) : outcome (list (list R)) :=
  basis_dir <- map2M (fun x n => lagrange_basis_1D cheb x n chebyshev) point order ;;
  der_dir <- map2M (fun x n => lagrange_der_1D cheb x n chebyshev) point order ;;
  Ret (map (fun dir_der => tensor_values order (map (fun dir => if (dir =? dir_der)%nat then nth dir der_dir [] else nth dir basis_dir [])
                                                  (seq 0 (length order)))) (seq 0 (length order))).
