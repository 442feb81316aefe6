(** Specification vocabulary for C69 - C72. *)
From Coq Require Import Reals List ZArith Sorted Permutation.
Import ListNotations.
Local Close Scope Z_scope. Local Open Scope R_scope.

(** A root to be adjusted: inside the interval; an interval end (id -1) is one of the two ends. *)
Definition root_in (x0 x1 : R) (e : R * Z) : Prop := x0 <= fst e <= x1 /\ (-1 <= snd e)%Z /\ (snd e = (-1)%Z -> fst e = x0 \/ fst e = x1).
(** Entries that come from a level set. *)
Definition levelset_entries (l : list (R * Z)) : list (R * Z) := filter (fun e => negb (snd e =? -1)%Z) l.
(** [l] is the one entry [e] when it occurs in [entries] and nothing otherwise. *)
Definition once_if_present (e : R * Z) (entries l : list (R * Z)) : Prop := (In e entries -> l = [e]) /\ (~ In e entries -> l = []).
(** [n] is the entry [o] with the same id, moved by at most [tol]. *)
Definition moved_within (tol : R) (o n : R * Z) : Prop := snd o = snd n /\ Rabs (fst o - fst n) <= tol.
(** In the ascending list [l] two steps of at most [tol] follow each other only if the first one is zero. *)
Definition no_chain (tol : R) (l : list R) : Prop := forall pre a b c post, l = pre ++ a :: b :: c :: post -> b - a <= tol -> c - b <= tol -> a = b.
