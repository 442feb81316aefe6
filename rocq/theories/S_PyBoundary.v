(** Specification of lengths and areas. *)
From Coq Require Import Reals.
Local Open Scope R_scope.
Definition len2 (x y : R) : R := sqrt (x ^ 2 + y ^ 2).
Definition len3 (x y z : R) : R := sqrt (x ^ 2 + y ^ 2 + z ^ 2).
(** The area of the parallelogram of two vectors of space. *)
Definition area3 (u0 u1 u2 v0 v1 v2 : R) : R := len3 (u1 * v2 - u2 * v1) (u2 * v0 - u0 * v2) (u0 * v1 - u1 * v0).
