(** Specification vocabulary for the faces of the box reached by the mesh of a level set (C108). *)
From Coq Require Import Reals List Arith ZArith.
From Verif Require Import M_General S_General S_Geo.
Import ListNotations.
Local Close Scope Z_scope. Local Close Scope nat_scope. Local Open Scope R_scope.

(** On the face (d, s) of the box the function takes a value below -eta and a value above eta. *)
Definition crosses_face (phi : list R -> R) (dom : bbox) (d s : nat) (eta : R) : Prop :=
  exists a b, in_box dom a /\ in_box dom b /\ nth d a 0 = side_coord dom s d /\ nth d b 0 = side_coord dom s d /\ phi a < - eta /\ eta < phi b.
(** One of the points lies on the face (d, s) of the box. *)
Definition reaches_face (dom : bbox) (d s : nat) (points : list (list R)) : Prop := exists p, In p points /\ nth d p 0 = side_coord dom s d.
(** Among the directions of the square the interval evaluation of the gradient on the whole box chooses k, and its component has one sign. *)
Definition chooses (O : oracles) (dom : bbox) (k : nat) : Prop :=
  let g d := o_grad O [true; true] dom (mk_psi [0; 0]%nat (-1)) d in
  let len d := nth d (bmax dom) 0 - nth d (bmin dom) 0 in
  (k < 2)%nat /\ snd (g k) = true /\ 1001 / 1000 * snd (fst (g k)) < Rabs (fst (fst (g k))) /\ Rabs (fst (fst (g (1 - k)%nat))) * len (1 - k)%nat < Rabs (fst (fst (g k))) * len k.
(** The first and the last node are the ends of the interval. *)
Definition ends_nodes (cheb : nat -> nat -> R) : Prop := forall n, (2 <= n)%nat -> cheb 0%nat n = 0 /\ cheb (n - 1)%nat n = 1.
