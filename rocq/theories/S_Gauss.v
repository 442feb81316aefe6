(** Specification vocabulary for polynomial exactness. *)
From Coq Require Import Reals List.
From Coquelicot Require Import Coquelicot.
Import ListNotations.
Local Open Scope R_scope.
(** The coordinate of x relative to the interval [a, b]: 0 at a, 1 at b. *)
Definition rel (a b x : R) : R := (x - a) / (b - a).
(** Polynomials in one, two, three relative coordinates, as lists of terms (coefficient, exponents). *)
Definition poly1 (a b : R) (P : list (R * nat)) (x : R) : R := fold_right (fun t s => fst t * rel a b x ^ snd t + s) 0 P.
Definition poly2 (a b c d : R) (P : list (R * (nat * nat))) (x y : R) : R :=
  fold_right (fun t s => fst t * (rel a b x ^ fst (snd t) * rel c d y ^ snd (snd t)) + s) 0 P.
Definition poly3 (a b c d e f : R) (P : list (R * (nat * nat * nat))) (x y z : R) : R :=
  fold_right (fun t s => fst t * (rel a b x ^ fst (fst (snd t)) * rel c d y ^ snd (fst (snd t)) * rel e f z ^ snd (snd t)) + s) 0 P.
(** The sum of the absolute values of the coefficients. *)
Definition size {A} (P : list (R * A)) : R := fold_right (fun t s => Rabs (fst t) + s) 0 P.
(** Integrals over a rectangle and over a box. *)
Definition RInt2 (F : R -> R -> R) (a b c d : R) : R := RInt (fun y => RInt (fun x => F x y) a b) c d.
Definition RInt3 (F : R -> R -> R -> R) (a b c d e f : R) : R := RInt (fun z => RInt2 (fun x y => F x y z) a b c d) e f.
(** 10^-14. *)
Definition tiny : R := / 10 ^ 14.
