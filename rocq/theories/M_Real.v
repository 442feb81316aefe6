(** Real numbers standing for C++ [real] (double): exact arithmetic, decidable comparisons. *)
From Coq Require Export Reals.
From Verif Require Export M_Base.
Open Scope R_scope.

(** [x < y], [x <= y], [x == y] on [real]. *)
Definition Rltb (x y : R) : bool := if Rlt_dec x y then true else false.
Definition Rleb (x y : R) : bool := if Rle_dec x y then true else false.
Definition Reqb (x y : R) : bool := if Req_EM_T x y then true else false.

(** include/qugar/utils.hpp 38-43: [at(cont, ind)], bounds-checked by an assertion. *)
Definition at_ {A} (l : list A) (i : Z) : outcome A :=
  if (i <? 0)%Z then Abort
  else match nth_error l (Z.to_nat i) with Some a => Ret a | None => Abort end.

(** A loop over the directions that computes one entry per direction from two arrays. *)
Fixpoint map2M {A B C} (f : A -> B -> outcome C) (l : list A) (m : list B) : outcome (list C) :=
  match l, m with
  | a :: l', b :: m' => c <- f a b ;; cs <- map2M f l' m' ;; Ret (c :: cs)
  | _, _ => Ret []
  end.
Fixpoint mapM {A B} (f : A -> outcome B) (l : list A) : outcome (list B) :=
  match l with
  | [] => Ret []
  | a :: l' => b <- f a ;; bs <- mapM f l' ;; Ret (b :: bs)
  end.
Fixpoint map2 {A B C} (f : A -> B -> C) (l : list A) (m : list B) : list C :=
  match l, m with
  | a :: l', b :: m' => f a b :: map2 f l' m'
  | _, _ => []
  end.
