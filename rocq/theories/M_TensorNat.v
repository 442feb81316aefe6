(** Tensor indices with natural number entries, used by the mesh and polynomial models where flat indices address vectors.
    [tp_flat] and [tp_range] are the functions of M_TensorIndex ([to_flat], [iterate]) without machine-integer checks:
    L_TensorNat.v proves that they agree with them ([tp_flat_ok], [tp_range_ok]). *)
From Verif Require Export M_Base M_TensorIndex.
Close Scope Z_scope.
Open Scope nat_scope.

(** tensor_index_tp.cpp 130-144: flat(size). *)
Fixpoint tp_flat (size t : list nat) : nat :=
  match size, t with s :: size', i :: t' => i + s * tp_flat size' t' | _, _ => 0 end.
(** tensor_index_tp.cpp 210-228, 306-341: the range-based for loop over TensorIndexRangeTP(lower, upper), direction 0 fastest. *)
Fixpoint tp_range (lo hi : list nat) : list (list nat) :=
  match lo, hi with
  | l :: lo', h :: hi' => flat_map (fun rest => map (fun i => i :: rest) (seq l (h - l))) (tp_range lo' hi')
  | _, _ => [[]]
  end.
(** TensorSizeTP(order), TensorIndexTP(0): the same value in every direction. *)
Definition tp_const (dim n : nat) : list nat := repeat n dim.
(** tensor_index_tp.cpp 56-63: size(). *)
Definition tp_size (size : list nat) : nat := fold_right Nat.mul 1 size.
(** TensorIndexRangeTP(size): from zero. *)
Definition tp_all (size : list nat) : list (list nat) := tp_range (tp_const (length size) 0) size.
