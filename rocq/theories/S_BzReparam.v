(** Specification vocabulary for the Bezier reparameterization (C94 - C97). *)
From Coq Require Import Reals List ZArith Arith.
From Verif Require Import M_BzReparam S_Roots S_Mesh S_General P_Scale.
Import ListNotations.
Local Close Scope Z_scope. Local Close Scope nat_scope. Local Open Scope R_scope.

(** What is assumed of the code that is called and not modelled: the roots returned for the unit interval are in it, std::sort sorts, the Chebyshev nodes are in
    [0,1], the height direction is a direction of the space.  Nothing is assumed on the masks, the values, the elimination or the discriminants. *)
Record bz_sound {P} (Z : bz_oracles P) : Prop := mk_bsound {
  bs_roots : forall p pt k, Forall (fun r => 0 <= r <= 1) (z_roots Z p pt k);
  bs_sort : sorts_by root_less (z_sort Z);
  bs_cheb : forall i n, (i < n)%nat -> 0 <= z_cheb Z i n <= 1;
  bs_dir : forall dim phi k, z_choose Z dim phi = Some k -> (k < dim)%nat }.
(** There is always a best direction (the scores are not all zero). *)
Definition scored {P} (Z : bz_oracles P) : Prop := forall dim phi, (0 < dim)%nat -> phi <> [] -> z_choose Z dim phi <> None.
(** A point of the unit cube of dimension n. *)
Definition in_cube (n : nat) (x : list R) : Prop := length x = n /\ Forall (fun r => 0 <= r <= 1) x.
(** The mesh m' is the mesh m, with n0 cells, and a reparameterization of a part of the box [domain] computed in the unit box: k new cells of new points that are
    not shared, at the relative positions in the box [domain] of the points [np] of the unit box, with the wires computed there. *)
Definition bezier_added (range : nat) (lev : bool) (phi : list R -> R) (domain : bbox) (m m' : mesh) (n0 k : nat) (np np' : list (list R)) : Prop :=
  exists mu ni wi, region_added (mesh_dim range lev) range (in_box (box01 range)) phi (10000 * / 2 ^ 52) (box01 range) m mu n0 k np ni wi /\ length np = (k * m_order m ^ mesh_dim range lev)%nat /\
    m_order m' = m_order m /\ m_conn m' = m_conn m ++ ni /\ m_wires m' = m_wires m ++ wi /\ m_points m' = m_points m ++ np' /\
    Forall2 (same_position range (box01 range) domain) np np' /\ Forall (in_box domain) np'.
(** The box has [range] dimensions and is not inside out. *)
Definition proper_box (range : nat) (b : bbox) : Prop := length (bmin b) = range /\ length (bmax b) = range /\ forall d, (d < range)%nat -> nth d (bmin b) 0 <= nth d (bmax b) 0.
(** Where the recursion ends on a tensor-product base (a lowest object [l] over a base of dimension bot > 0 that no polynomial subdivides), each polynomial of that object
    has, over every point of the base, as many roots away from the ends of the line as over the centre. *)
Definition steady {P} (Z : bz_oracles P) (range : nat) (polys : list P) : Prop :=
  forall k bot l up, bz_build Z true range polys = Ret (k, bot, l :: up) -> (0 < bot)%nat ->
  forall q pt, In q (v_phi l) -> in_cube bot pt ->
    length (filter (fun r => negb (tol_equal (10 * / 2 ^ 52) r 0 || tol_equal (10 * / 2 ^ 52) r 1)) (bz_roots Z l q pt)) = length (bz_roots Z l q (repeat (/ 2) bot)).
(** The mesh m' is m and, box after box, reparameterizations of the boxes computed in the unit box with the function [value b] of the box b. *)
Inductive beziers_added (range : nat) (lev : bool) (value : bbox -> list R -> R) : list bbox -> mesh -> mesh -> Prop :=
| ba_nil m : beziers_added range lev value [] m m
| ba_cons b bs m m1 m' n0 k np np' : length (m_conn m) = (n0 * m_order m ^ mesh_dim range lev)%nat -> bezier_added range lev (value b) b m m1 n0 k np np' ->
    beziers_added range lev value bs m1 m' -> beziers_added range lev value (b :: bs) m m'.
