(** Model of cpp/include/qugar/tensor_index_tp.hpp and cpp/qugar/tensor_index_tp.cpp.
    A tensor index / size of dimension [dim] is a list of [dim] integers, direction 0 first. *)
From Verif Require Import M_Base.
Open Scope Z_scope.

(** tensor_index_tp.cpp 56-63, TensorSizeTP::size(): product of the entries (size_t; exact here). *)
Fixpoint size_prod (size : list Z) : Z :=
  match size with [] => 1 | s :: size' => s * size_prod size' end.

(** algoim's [prod] on a Vector<int,dim>: the product accumulated in [int]; used by
    tensor_index_tp.hpp 140. *)
Fixpoint prod_int_acc (acc : Z) (size : list Z) : outcome Z :=
  match size with
  | [] => Ret acc
  | s :: size' => p <- i32 (acc * s) ;; prod_int_acc p size'
  end.
Definition prod_int (size : list Z) : outcome Z := prod_int_acc 1 size.

(** tensor_index_tp.hpp 145-151: the loop [for dir = dim-1 .. 0].  [rsize] is the size reversed (last
    direction first); the result is the reversed tensor index. Division is C++ integer division
    (truncating = flooring here, operands are non-negative); division by zero is UB. *)
Fixpoint unflat_loop (rsize : list Z) (total flat : Z) : outcome (list Z) :=
  match rsize with
  | [] => Ret []
  | s :: rsize' =>
      if s =? 0 then UB else
      let total := total / s in
      if total =? 0 then UB else
      let ind := flat / total in
      assert_ (ind <? INT_MAX) (
      rest <- unflat_loop rsize' total (flat - ind * total) ;;
      Ret (ind :: rest))
  end.

(** tensor_index_tp.hpp 138-152 (and 163): TensorIndexTP(flat_index, size). *)
Definition to_tensor (flat : Z) (size : list Z) : outcome (list Z) :=
  total <- prod_int size ;;
  assert_ ((0 <=? flat) && (flat <? total)) (
  r <- unflat_loop (rev size) total flat ;;
  Ret (rev r)).

(** tensor_index_tp.cpp 130-144: flat(size), with int64 arithmetic. *)
Fixpoint flat_loop (ind size : list Z) (accum flat : Z) : outcome Z :=
  match ind, size with
  | i :: ind', s :: size' =>
      assert_ ((0 <=? i) && (i <? s)) (
      ia <- i64 (i * accum) ;;
      flat' <- i64 (flat + ia) ;;
      accum' <- i64 (accum * s) ;;
      flat_loop ind' size' accum' flat')
  | _, _ => Ret flat
  end.
Definition to_flat (ind size : list Z) : outcome Z := flat_loop ind size 1 0.

(** tensor_index_tp.cpp 116-128: operator<.  The C++ loop runs over dir = dim-1 .. 1 and returns false
    as soon as rhs(dir) < lhs(dir); finally compares component 0. *)
Definition tid_lt (lhs rhs : list Z) : bool :=
  match lhs, rhs with
  | l0 :: l', r0 :: r' =>
      negb (existsb (fun p => (snd p <? fst p)) (rev (combine l' r'))) && (l0 <? r0)
  | _, _ => false
  end.

(** tensor_index_tp.cpp 146-158: remove_component(comp). *)
Fixpoint remove_component {A} (comp : nat) (l : list A) : list A :=
  match l, comp with
  | [], _ => []
  | _ :: l', O => l'
  | x :: l', S c => x :: remove_component c l'
  end.

(** TensorIndexRangeTP: lower and upper bounds (tensor_index_tp.cpp 173-197). *)
Record range := mk_range { lower : list Z; upper : list Z }.

(** tensor_index_tp.cpp 200-203: get_sizes. *)
Fixpoint vsub (u l : list Z) : list Z :=
  match u, l with x :: u', y :: l' => (x - y) :: vsub u' l' | _, _ => [] end.
Definition range_sizes (r : range) : list Z := vsub (upper r) (lower r).

(** tensor_index_tp.cpp 205-208: size(). *)
Definition range_size (r : range) : Z := size_prod (range_sizes r).

(** tensor_index_tp.cpp 306-320: Iterator::operator++. [None] means that the loop fell through, after
    which the C++ code sets the index to the upper bound. *)
Fixpoint odometer (index lo hi : list Z) : option (list Z) :=
  match index, lo, hi with
  | i :: index', l :: lo', h :: hi' =>
      if i + 1 <? h then Some ((i + 1) :: index')
      else match odometer index' lo' hi' with
           | Some rest => Some (l :: rest)
           | None => None
           end
  | _, _, _ => None
  end.
Definition iter_next (r : range) (index : list Z) : list Z :=
  match odometer index (lower r) (upper r) with Some i => i | None => upper r end.

(** tensor_index_tp.cpp 102-109: operator== on indices (all components equal). *)
Fixpoint tid_eqb (a b : list Z) : bool :=
  match a, b with
  | [], [] => true
  | x :: a', y :: b' => (x =? y) && tid_eqb a' b'
  | _, _ => false
  end.

(** The range-based for loop [for (tid : range)] (tensor_index_tp.cpp 210-228, 329-341):
    starts at the lower bound, stops when the index equals the upper bound. *)
Fixpoint iterate_from (fuel : nat) (r : range) (index : list Z) : outcome (list (list Z)) :=
  if tid_eqb index (upper r) then Ret [] else
  match fuel with
  | O => OutOfFuel
  | S fuel' => rest <- iterate_from fuel' r (iter_next r index) ;; Ret (index :: rest)
  end.
Definition iterate (fuel : nat) (r : range) : outcome (list (list Z)) := iterate_from fuel r (lower r).

(** tensor_index_tp.cpp 240-244: is_in_range(tensor). *)
Fixpoint all_le (a b : list Z) : bool :=
  match a, b with x :: a', y :: b' => (x <=? y) && all_le a' b' | _, _ => true end.
Fixpoint all_lt (a b : list Z) : bool :=
  match a, b with x :: a', y :: b' => (x <? y) && all_lt a' b' | _, _ => true end.
Definition in_range (r : range) (t : list Z) : bool := all_le (lower r) t && all_lt t (upper r).

(** tensor_index_tp.cpp 246-255: is_in_range(flat, total_size). *)
Definition in_range_flat (r : range) (flat : Z) (total : list Z) : outcome bool :=
  assert_ (0 <=? flat) (
  if size_prod total <=? flat then Ret false
  else t <- to_tensor flat total ;; Ret (in_range r t)).

(** algoim's argmax: index of the first maximal component. *)
Fixpoint argmax_from (best : Z) (besti : nat) (i : nat) (l : list Z) : nat :=
  match l with
  | [] => besti
  | x :: l' => if best <? x then argmax_from x i (S i) l' else argmax_from best besti (S i) l'
  end.
Definition argmax (l : list Z) : nat :=
  match l with [] => O | x :: l' => argmax_from x O 1 l' end.

Fixpoint set_nth {A} (n : nat) (v : A) (l : list A) : list A :=
  match l, n with
  | [], _ => []
  | _ :: l', O => v :: l'
  | x :: l', S n' => x :: set_nth n' v l'
  end.

(** tensor_index_tp.cpp 258-273: split().  lower+upper is an [int] addition. *)
Definition split_range (r : range) : outcome (range * range) :=
  assert_ (1 <? range_size r) (
  let d := argmax (range_sizes r) in
  s <- i32 (nth d (lower r) 0 + nth d (upper r) 0) ;;
  let split_id := Z.quot s 2 in
  Ret (mk_range (lower r) (set_nth d split_id (upper r)),
       mk_range (set_nth d split_id (lower r)) (upper r))).
