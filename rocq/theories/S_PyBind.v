(** What the bindings should do. *)
From Coq Require Import List ZArith Reals.
From Verif Require Import M_PyBind.
Import ListNotations.
Open Scope Z_scope.
(** The elements of a numpy array, as Python sees them. *)
Definition elements {A} (a : view A) (l : list A) : Prop :=
  length l = v_size a /\ forall i, (i < v_size a)%nat -> exists x, nth_error l i = Some x /\ 0 <= v_start a + v_step a * Z.of_nat i /\ nth_error (v_buf a) (Z.to_nat (v_start a + v_step a * Z.of_nat i)) = Some x.
(** The array [numpy.array(l)], its slices [a[::2]] and [a[::-1]]. *)
Definition whole {A} (l : list A) : view A := mk_view l 0 1 (length l).
Definition every_other {A} (l : list A) : view A := mk_view l 0 2 (Nat.div2 (S (length l))).
Definition reversed {A} (l : list A) : view A := mk_view l (Z.of_nat (length l) - 1) (-1) (length l).
(** The memory of a Python object can be read. *)
Definition readable (s : state) (n : nat) : Prop :=
  exists x, In (n, x) (nodes s) /\
    match x with
    | Owner o => exists c, In (o, c) (objs s)
    | Part o _ _ => exists c, In (o, c) (objs s)
    | Array (InObj o) _ => exists c, In (o, c) (objs s)
    | Array (Buffer b) _ => In b (bufs s)
    | Array Stack _ => False
    end.
