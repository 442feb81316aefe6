(** Specification vocabulary for the position of the points of a reparameterization (C98 - C101). *)
From Coq Require Import Reals List ZArith Arith.
From Verif Require Import M_General S_General.
Import ListNotations.
Local Close Scope Z_scope. Local Close Scope nat_scope. Local Open Scope R_scope.

(** The box b is contained in dom. *)
Definition within (b dom : bbox) : Prop :=
  length (bmin b) = length (bmin dom) /\ length (bmax b) = length (bmin dom) /\
  forall d, (d < length (bmin dom))%nat -> nth d (bmin dom) 0 <= nth d (bmin b) 0 <= nth d (bmax b) 0 /\ nth d (bmax b) 0 <= nth d (bmax dom) 0.
(** The coordinate of side s (0: lower) of the box in direction d. *)
Definition side_coord (b : bbox) (s d : nat) : R := if (s =? 0)%nat then nth d (bmin b) 0 else nth d (bmax b) 0.
(** The point x of the box lies on the face given by the sides of p in the directions that are not free. *)
Definition on_face (free : list bool) (b : bbox) (p : psi_code) (x : list R) : Prop :=
  in_box b x /\ forall d, (d < length x)%nat -> nth d free true = false -> nth d x 0 = side_coord b (nth d (ps_side p) 0%nat) d.
(** What is assumed, in this file, of the code that is called and not modelled, in the box dom.  The root finder returns different zeros of the function on a
    segment and finds one wherever the function changes sign (or is zero at one end only); a function said to have a uniform sign on a face has this sign,
    a derivative said to have a uniform sign makes the function strictly monotone; determineSigns is algoim's. *)
Record exact (O : oracles) (dom : bbox) : Prop := mk_exact {
  e_zero : forall pt k a b flag r, in_box dom (set_at pt k a) -> in_box dom (set_at pt k b) -> In r (o_root_find O pt k a b flag) -> o_phi O (set_at pt k r) = 0;
  e_nodup : forall pt k a b flag, NoDup (o_root_find O pt k a b flag);
  e_cross : forall pt k a b flag s t, in_box dom (set_at pt k a) -> in_box dom (set_at pt k b) -> a <= s <= b -> a <= t <= b ->
    o_phi O (set_at pt k s) <= 0 <= o_phi O (set_at pt k t) -> o_phi O (set_at pt k s) <> o_phi O (set_at pt k t) ->
    exists r, In r (o_root_find O pt k a b flag) /\ Rmin s t <= r <= Rmax s t;
  e_value : forall free b p x, within b dom -> snd (o_value O free b p) = true -> on_face free b p x -> 0 < fst (o_value O free b p) * o_phi O x;
  e_grad : forall free b p k x s t, within b dom -> nth k free false = true -> snd (o_grad O free b p k) = true ->
    on_face free b p (set_at x k s) -> on_face free b p (set_at x k t) -> s < t ->
    0 < fst (fst (o_grad O free b p k)) * (o_phi O (set_at x k t) - o_phi O (set_at x k s));
  e_signs_region : forall inc : bool, o_signs O false inc (-1) = (if inc then (-1, 0) else (0, -1))%Z;
  e_signs_levelset : forall (inc : bool) sign, o_signs O true inc sign = (if inc then (-1, 1) else (1, -1))%Z }.
(** The function changes at most by L times the distance along every direction, in the box. *)
Definition lipschitz (phi : list R -> R) (L : R) (dom : bbox) : Prop :=
  forall x d s t, in_box dom (set_at x d s) -> in_box dom (set_at x d t) -> Rabs (phi (set_at x d t) - phi (set_at x d s)) <= L * Rabs (t - s).
(** The lower and the upper half of a box in direction d; a box obtained by n bisections. *)
Definition half (b : bbox) (d : nat) (upper : bool) : bbox :=
  let mid := / 2 * (nth d (bmin b) 0 + nth d (bmax b) 0) in
  if upper then mk_box (set_at (bmin b) d mid) (bmax b) else mk_box (bmin b) (set_at (bmax b) d mid).
Inductive bisected : nat -> bbox -> bbox -> Prop :=
| bis_0 : forall b, bisected 0 b b
| bis_S : forall n b d upper c, (d < length (bmin b))%nat -> bisected n (half b d upper) c -> bisected (S n) b c.
Definition box_centre (b : bbox) : list R := map (fun d => / 2 * (nth d (bmin b) 0 + nth d (bmax b) 0)) (seq 0 (length (bmin b))).
(** The lengths of the box are at most M; the level set function is not too steep: a step of one tolerance (1e1 machine precisions times M) changes it by
    at most 1000 tolerances. *)
Definition moderate (phi : list R -> R) (dom : bbox) (M : R) : Prop :=
  1 <= M /\ (forall d, (d < length (bmin dom))%nat -> nth d (bmax dom) 0 - nth d (bmin dom) 0 <= M) /\
  exists L, 0 <= L /\ L * M <= 1000 /\ lipschitz phi L dom.
(** The accuracy of the points. *)
Definition accuracy (M : R) : R := 1000 * M * (10 * / 2 ^ 52).
