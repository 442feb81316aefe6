(** Conventions of the models of the Python layer (/repo/python/qugar).
    A failing [assert], a raised exception and an out-of-range index all are [Abort]; numpy integers are
    unbounded (no wrap-around), numpy arrays are lists. *)
From Coq Require Export List ZArith Bool Lia.
From Verif Require Export M_Base.
Export ListNotations.
Open Scope nat_scope.

(** A list comprehension / a loop filling an array, stopping at the first exception. *)
Fixpoint pmap {A B} (f : A -> outcome B) (l : list A) : outcome (list B) :=
  match l with [] => Ret [] | x :: l' => y <- f x ;; ys <- pmap f l' ;; Ret (y :: ys) end.
(** numpy indexing [a[i]], [i >= 0]. *)
Definition pat {A} (l : list A) (i : nat) : outcome A := match nth_error l i with Some x => Ret x | None => Abort end.
(** numpy indexing [a[i]] with a signed index: negative indices count from the end. *)
Definition patz {A} (l : list A) (i : Z) : outcome A :=
  let n := Z.of_nat (length l) in
  if (0 <=? i)%Z then pat l (Z.to_nat i) else if (0 <=? i + n)%Z then pat l (Z.to_nat (i + n)) else Abort.
(** Fancy indexing [a[idx]]. *)
Definition take_ids {A} (l : list A) (idx : list nat) : outcome (list A) := pmap (pat l) idx.
Definition take_zids {A} (l : list A) (idx : list Z) : outcome (list A) := pmap (patz l) idx.
(** [np.where(l == x)[0][0]], starting to count at [k]. *)
Fixpoint where_from (k x : nat) (l : list nat) : outcome nat :=
  match l with [] => Abort | y :: l' => if y =? x then Ret k else where_from (S k) x l' end.
Definition where0 (x : nat) (l : list nat) : outcome nat := where_from 0 x l.
(** [range(a, b)]. *)
Definition range (a b : nat) : list nat := seq a (b - a).
(** [np.arange(a, b, s)], [s > 0]: the values a, a+s, ... below b. *)
Definition arange (a b s : nat) : list nat := map (fun k => a + k * s) (seq 0 ((b - a + (s - 1)) / s)).
(** Broadcast sum of a row [r] and a column [c], as rows: [r + c.reshape(n, 1)]. *)
Definition outer_sum (r c : list nat) : list (list nat) := map (fun y => map (fun x => x + y) r) c.
