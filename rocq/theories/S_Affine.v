(** Independent notions for affine maps, reference systems and derivatives. *)
From Coq Require Import Reals List Lia.
From Coquelicot Require Import Coquelicot.
Import ListNotations.
Open Scope R_scope.

(** Total derivative at a point, along every differentiable curve through it: [f] has gradient [g] at [p] (dimension [d]). *)
Definition has_gradient (d : nat) (f : list R -> R) (p g : list R) : Prop :=
  length g = d /\
  forall (c : nat -> R -> R) (dc : nat -> R),
    (forall i, (i < d)%nat -> c i 0 = nth i p 0) -> (forall i, (i < d)%nat -> is_derive (c i) 0 (dc i)) ->
    is_derive (fun t => f (map (fun i => c i t) (seq 0 d))) 0 (fold_right Rplus 0 (map (fun i => nth i g 0 * dc i) (seq 0 d))).

(** Position of the entry (i,j), i <= j, in the storage of symmetric tensors (2D: xx xy yy; 3D: xx xy xz yy yz zz). *)
Definition sym_pos (d i j : nat) : nat :=
  match d, Nat.min i j, Nat.max i j with
  | 2%nat, 0%nat, k => k
  | 2%nat, _, _ => 2
  | _, 0%nat, k => k
  | _, 1%nat, k => (2 + k)%nat
  | _, _, _ => 5
  end.
(** [h] is the Hessian of [f] at [p]: [f] has a gradient everywhere, and the i-th row of [h] is the gradient of its i-th component. *)
Definition has_hessian (d : nat) (f : list R -> R) (p h : list R) : Prop :=
  length h = (d * (d + 1) / 2)%nat /\
  exists G, (forall q, length q = d -> has_gradient d f q (G q)) /\
  forall i, (i < d)%nat -> has_gradient d (fun q => nth i (G q) 0) p (map (fun j => nth (sym_pos d i j) h 0) (seq 0 d)).

(** Inner product, right-handed orthonormal bases. *)
Definition inner (u v : list R) : R := fold_right Rplus 0 (map (fun i => nth i u 0 * nth i v 0) (seq 0 (length u))).
Definition orthonormal (basis : list (list R)) : Prop :=
  forall i j, (i < length basis)%nat -> (j < length basis)%nat ->
    length (nth i basis []) = length basis /\ inner (nth i basis []) (nth j basis []) = if Nat.eqb i j then 1 else 0.
Definition det2 (u v : list R) : R := nth 0 u 0 * nth 1 v 0 - nth 1 u 0 * nth 0 v 0.
Definition det3 (u v w : list R) : R :=
  nth 0 u 0 * (nth 1 v 0 * nth 2 w 0 - nth 2 v 0 * nth 1 w 0) - nth 1 u 0 * (nth 0 v 0 * nth 2 w 0 - nth 2 v 0 * nth 0 w 0)
  + nth 2 u 0 * (nth 0 v 0 * nth 1 w 0 - nth 1 v 0 * nth 0 w 0).
Definition same_direction (e a : list R) : Prop := exists k, 0 < k /\ e = map (Rmult k) a.

(** The mathematical affine map with matrix and translation given by a coefficient list (matrix by rows, then translation). *)
Definition affine (d : nat) (cf x : list R) : list R :=
  map (fun i => fold_right Rplus 0 (map (fun j => nth (d * i + j) cf 0 * nth j x 0) (seq 0 d)) + nth (d * d + i) cf 0) (seq 0 d).
(** Determinant of the matrix part. *)
Definition aff_det (d : nat) (cf : list R) : R :=
  match d with
  | 2%nat => det2 (firstn 2 cf) (firstn 2 (skipn 2 cf))
  | _ => det3 (firstn 3 cf) (firstn 3 (skipn 3 cf)) (firstn 3 (skipn 6 cf))
  end.
