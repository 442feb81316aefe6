(** Specification vocabulary for the position of the points of a Bezier reparameterization in the plane (C105, C106). *)
From Coq Require Import Reals List ZArith Arith Sorted.
From Verif Require Import M_BzReparam S_BzReparam.
Import ListNotations.
Local Close Scope Z_scope. Local Close Scope nat_scope. Local Open Scope R_scope.

(** The tolerance of the code. *)
Definition tiny : R := 10 * / 2 ^ 52.
(** The point with height y in direction k over the point x of the other direction; the value of the polynomial there. *)
Definition over (k : nat) (x y : R) : list R := match k with O => [y; x] | _ => [x; y] end.
Definition height_value {P} (Z : bz_oracles P) (p : P) (k : nat) (x y : R) : R := z_eval Z p (over k x y).
Definition unit_interval (r : R) : Prop := 0 <= r <= 1.

(** ** What is assumed of Algoim *)
(** The roots found in the line of points ([at_] gives the point at a height) are its zeros, each once. *)
Definition finds_zeros {P} (Z : bz_oracles P) (p : P) (pt : list R) (k : nat) (at_ : R -> list R) : Prop :=
  NoDup (z_roots Z p pt k) /\
  forall y, unit_interval y -> ((z_line Z p pt k = true /\ In y (z_roots Z p pt k) /\ z_mask Z p (at_ y) = true) <-> z_eval Z p (at_ y) = 0).
(** The ends of the base interval and the zeros of the polynomials of the base (resultants and discriminants). *)
Definition cut {P} (Z : bz_oracles P) (p : P) (k : nat) (x : R) : Prop :=
  x = 0 \/ x = 1 \/ (unit_interval x /\ exists q, In q (z_elim Z [p] k) /\ z_eval Z q [x] = 0).
(** Over [a, b] the zeros of f form the graphs of the functions ys, in ascending order: over the interior they are all the zeros, different, and inside the unit interval.
    Between two graphs (or an end of the unit interval and a graph) f has one sign: positive or negative. *)
Record layered (f : R -> R -> R) (a b : R) (ys : list (R -> R)) (positive : list bool) : Prop := mk_layered {
  ly_count : length positive = S (length ys);
  ly_zero : forall x y, a <= x <= b -> In y ys -> f x (y x) = 0;
  ly_order : forall x, a <= x <= b -> StronglySorted Rle (0 :: map (fun y => y x) ys ++ [1]);
  ly_strict : forall x, a < x < b -> StronglySorted Rlt (0 :: map (fun y => y x) ys ++ [1]);
  ly_all : forall x y, a < x < b -> unit_interval y -> f x y = 0 -> exists g, In g ys /\ y = g x;
  ly_sign : forall x y j, a <= x <= b -> (j < S (length ys))%nat -> let u := 0 :: map (fun y => y x) ys ++ [1] in
    nth j u 0 <= y <= nth (S j) u 0 -> if nth j positive false then 0 <= f x y else f x y <= 0 }.

(** ** Genericity *)
Definition away (y : R) : Prop := tiny < y < 1 - tiny.
Definition near_end (e y : R) : Prop := unit_interval y /\ Rabs (y - e) <= tiny.
(** One of the values is near the end e, or none is; if one is, f is small at the end, and the same holds at the other end e' if f is small there too. *)
Definition end_fine (f : R -> R -> R) (x : R) (vs : list R) (e e' : R) : Prop :=
  forall v, In v vs -> near_end e v -> Rabs (f x e) <= tiny /\ (Rabs (f x e') <= tiny -> exists w, In w vs /\ near_end e' w).
(** Over the point x: either the graphs that are away from the ends are different and are all the zeros away from the ends, and at most one graph is near each end; or f is
    not small at the ends, and the number of zeros away from the ends is not the number of graphs (some of them meet, or there are other zeros). *)
Definition orderly (f : R -> R -> R) (ys : list (R -> R)) (x : R) : Prop :=
  let vs := map (fun y => y x) ys in
  ((forall y, away y -> f x y = 0 -> In y vs) /\
   (forall i j, (i < j < length vs)%nat -> away (nth i vs 0) -> nth i vs 0 <> nth j vs 0) /\
   (forall i j, (i < j < length vs)%nat -> tiny < nth j vs 0 /\ nth i vs 0 < 1 - tiny) /\
   end_fine f x vs 0 1 /\ end_fine f x vs 1 0)
  \/ (tiny < Rabs (f x 0) /\ tiny < Rabs (f x 1) /\ forall zs, NoDup zs -> (forall y, In y zs <-> away y /\ f x y = 0) -> length zs <> length ys).
(** The values at a point are further apart than the tolerance, and from the ends. *)
Definition separated (ys : list (R -> R)) (x : R) : Prop := StronglySorted (fun u v => u + tiny < v) (0 :: map (fun y => y x) ys ++ [1]).

(** The polynomial p is cut well by the polynomials of its base: its zeros form layers over the pieces of the base, separated in the middle of the piece and orderly over the
    whole of it; different cuts are further apart than the tolerance. *)
Record generic {P} (Z : bz_oracles P) (p : P) (k : nat) : Prop := mk_generic {
  gn_cuts : forall x x', cut Z p k x -> cut Z p k x' -> x = x' \/ tiny < Rabs (x - x');
  gn_layers : forall a b, cut Z p k a -> cut Z p k b -> a < b -> (forall x, cut Z p k x -> ~ a < x < b) ->
    exists ys positive, layered (height_value Z p k) a b ys positive /\ separated ys (/ 2 * (a + b)) /\ forall x, a <= x <= b -> orderly (height_value Z p k) ys x }.
(** Algoim finds the zeros of the polynomial along its direction and those of the polynomials of the base, and is right about polynomials that have no zero. *)
Record algoim_exact {P} (Z : bz_oracles P) (p : P) (k : nat) : Prop := mk_ae {
  ae_dir : z_choose Z 2 [p] = Some k;
  ae_zeros : forall x, unit_interval x -> finds_zeros Z p [x] k (over k x);
  ae_base : forall q, In q (z_elim Z [p] k) -> finds_zeros Z q [] 0 (fun x => [x]);
  ae_empty : z_empty Z p = true -> z_eval Z p [/ 2; / 2] <= 0 -> forall x, in_cube 2 x -> z_eval Z p x <= 0 }.
(** A bound of the change of the value. *)
Definition slope {P} (Z : bz_oracles P) (p : P) (k : nat) (L : R) : Prop := 0 <= L /\
  forall x y x' y', unit_interval x -> unit_interval y -> unit_interval x' -> unit_interval y' ->
    Rabs (height_value Z p k x y - height_value Z p k x' y') <= L * (Rabs (x - x') + Rabs (y - y')).
