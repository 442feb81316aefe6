(** Independent specification for tensor indices: what "lexicographic flat index", "index in a
    box" and "lexicographic order" mean. *)
From Verif Require Import M_Base.
Open Scope Z_scope.

(** [t] is a valid index of a tensor of size [size]: same dimension, 0 <= t_d < size_d. *)
Definition valid_index (size t : list Z) : Prop := Forall2 (fun s i => 0 <= i < s) size t.

(** Number of entries of a tensor. *)
Definition cells (size : list Z) : Z := fold_right Z.mul 1 size.

(** Lexicographic numbering, direction 0 fastest: i0 + s0*(i1 + s1*(i2 + ...)). *)
Fixpoint lex (size t : list Z) : Z :=
  match size, t with s :: size', i :: t' => i + s * lex size' t' | _, _ => 0 end.

(** [t] lies in the half-open box [lo,hi). *)
Definition in_box (lo hi t : list Z) : Prop :=
  length lo = length t /\ length hi = length t /\
  forall d, (d < length t)%nat -> nth d lo 0 <= nth d t 0 < nth d hi 0.

(** Lexicographic order in which direction 0 runs fastest: the last differing component decides. *)
Definition lex_lt (a b : list Z) : Prop :=
  exists d, (d < length a)%nat /\ length a = length b /\
    nth d a 0 < nth d b 0 /\ forall e, (d < e < length a)%nat -> nth e a 0 = nth e b 0.
