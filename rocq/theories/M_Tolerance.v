(** Model of cpp/qugar/tolerance.cpp.  A [Tolerance] is its (non-negative) value. *)
From Verif Require Export M_Real.
Open Scope R_scope.

(** tolerance.cpp 32-35: constructor, asserts 0 <= value. *)
Definition mk_tol (v : R) : outcome R := assert_ (Rleb 0 v) (Ret v).
(** tolerance.cpp 54-57: update. *)
Definition tol_update (tol other : R) : R := Rmax tol other.
(** tolerance.cpp 37-40: constructor from two values. *)
Definition mk_tol2 (t0 t1 : R) : outcome R := a <- mk_tol t0 ;; b <- mk_tol t1 ;; Ret (tol_update a b).
(** tolerance.cpp 64-67 *)
Definition is_zero (tol v : R) : bool := Rleb (Rabs v) tol.
(** tolerance.cpp 69-72 *)
Definition is_negative (tol v : R) : bool := Rltb v (- tol).
(** tolerance.cpp 74-77 *)
Definition is_positive (tol v : R) : bool := Rltb tol v.
(** tolerance.cpp 79-82 *)
Definition tol_equal (tol a b : R) : bool := Rleb (Rabs (a - b)) tol.
(** tolerance.cpp 84-87 *)
Definition equal_rel (tol a b : R) : bool :=
  Rleb (Rabs (a - b)) ((if Rltb (Rabs a) (Rabs b) then Rabs b else Rabs a) * tol).
(** tolerance.cpp 89-93 *)
Definition equal_rel2 (tol a b rel : R) : bool :=
  Rleb (Rabs (a - b)) (tol + rel * (if Rltb (Rabs a) (Rabs b) then Rabs b else Rabs a)).
(** tolerance.cpp 95-98 *)
Definition greater_than (tol a b : R) : bool := Rltb tol (a - b).
(** tolerance.cpp 100-103 *)
Definition greater_equal_than (tol a b : R) : bool := tol_equal tol a b || greater_than tol a b.
(** tolerance.cpp 105-108 *)
Definition greater_than_rel (tol a b : R) : bool :=
  Rltb ((if Rltb (Rabs a) (Rabs b) then Rabs b else Rabs a) * tol) (a - b).
(** tolerance.cpp 110-114 *)
Definition smaller_than (tol a b : R) : bool := greater_than tol b a.
(** tolerance.cpp 116-120 *)
Definition smaller_equal_than (tol a b : R) : bool := greater_equal_than tol b a.
(** tolerance.cpp 122-126 *)
Definition smaller_than_rel (tol a b : R) : bool := greater_than_rel tol b a.

(** std::ranges::sort on reals; modelled by insertion sort (the sorted list is unique as a list of reals). *)
Fixpoint rinsert (x : R) (l : list R) : list R :=
  match l with [] => [x] | y :: l' => if Rleb x y then x :: y :: l' else y :: rinsert x l' end.
Fixpoint rsort (l : list R) : list R := match l with [] => [] | x :: l' => rinsert x (rsort l') end.

(** std::ranges::unique with an arbitrary predicate: each element is compared with the last kept one. *)
Fixpoint unique_from {A} (eqb : A -> A -> bool) (last : A) (l : list A) : list A :=
  match l with
  | [] => []
  | x :: l' => if eqb last x then unique_from eqb last l' else x :: unique_from eqb x l'
  end.
Definition unique_list {A} (eqb : A -> A -> bool) (l : list A) : list A :=
  match l with [] => [] | x :: l' => x :: unique_from eqb x l' end.

(** tolerance.cpp 128-135: unique(values). *)
Definition tol_unique (tol : R) (values : list R) : list R := unique_list (tol_equal tol) (rsort values).
