(** The tables of quadrature_lib.cpp as lists of real numbers (lines 31-5090: Gauss, 5092-10151: tanh-sinh).  Simplification: the decimal
    literals stand for themselves, they are not rounded to binary doubles. *)
From Coq Require Import Reals ZArith List.
From Verif Require Import M_GaussData M_TanhSinhData.
Local Open Scope R_scope.
(** The value of a decimal literal: mantissa / 10^exponent. *)
Definition decimal (q : Z * Z) : R := IZR (fst q) / IZR (10 ^ snd q).
(** quadrature_lib.cpp 31-5090: Gauss::get_quad_data *)
Definition gauss_table : list R := map decimal gauss_literals.
(** quadrature_lib.cpp 5092-10151: TanhSinh::get_quad_data *)
Definition tanh_sinh_table : list R := map decimal tanh_sinh_literals.
