(** Model of cpp/qugar/affine_transf.cpp and cpp/qugar/ref_system.cpp.  Points and vectors are lists of reals, the
    coefficients of an affine map are one list (dim*dim matrix entries by rows, then the translation). *)
From Verif Require Export M_Classify.
Open Scope R_scope.

(** [v(i)] *)
Definition vx (v : list R) (i : nat) : R := nth i v 0.
(** algoim: dot, sqrnorm, scaling, sum and difference of vectors. *)
Definition dot (u v : list R) : R := fold_left Rplus (map2 Rmult u v) 0.
Definition vscale (k : R) (v : list R) : list R := map (Rmult k) v.
Definition vadd (u v : list R) : list R := map2 Rplus u v.
Definition vsub (u v : list R) : list R := map2 Rminus u v.
(** affine_transf.cpp 35-39 and ref_system.cpp 36-41: cross_product. *)
Definition cross (l r : list R) : list R :=
  [vx l 1 * vx r 2 - vx l 2 * vx r 1; vx l 2 * vx r 0 - vx l 0 * vx r 2; vx l 0 * vx r 1 - vx l 1 * vx r 0].
(** [v /= n] / [(1/n) * v]; a zero norm gives NaN entries, reported as [UB]. *)
Definition div_by (v : list R) (n : R) : outcome (list R) := if Reqb n 0 then UB else Ret (vscale (/ n) v).

(** ** affine_transf.cpp *)
(** affine_transf.cpp 41-59: invert_matrix, 2x2. *)
Definition invert2 (m : list R) : outcome (list R) :=
  let det := vx m 0 * vx m 3 - vx m 1 * vx m 2 in
  assert_ (negb (is_zero default_tol det))
   (let inv_det := 1 / det in
    Ret [inv_det * vx m 3; - inv_det * vx m 1; - inv_det * vx m 2; inv_det * vx m 0]).
(** affine_transf.cpp 62-87: invert_matrix, 3x3. *)
Definition invert3 (m : list R) : outcome (list R) :=
  let det := vx m 0 * (vx m 4 * vx m 8 - vx m 7 * vx m 5) - vx m 1 * (vx m 3 * vx m 8 - vx m 5 * vx m 6)
             + vx m 2 * (vx m 3 * vx m 7 - vx m 4 * vx m 6) in
  assert_ (negb (is_zero default_tol det))
   (let inv_det := 1 / det in
    Ret [(vx m 4 * vx m 8 - vx m 7 * vx m 5) * inv_det;
         (vx m 2 * vx m 7 - vx m 1 * vx m 8) * inv_det;
         (vx m 1 * vx m 5 - vx m 2 * vx m 4) * inv_det;
         (vx m 5 * vx m 6 - vx m 3 * vx m 8) * inv_det;
         (vx m 0 * vx m 8 - vx m 2 * vx m 6) * inv_det;
         (vx m 3 * vx m 2 - vx m 0 * vx m 5) * inv_det;
         (vx m 3 * vx m 7 - vx m 6 * vx m 4) * inv_det;
         (vx m 6 * vx m 1 - vx m 0 * vx m 7) * inv_det;
         (vx m 0 * vx m 4 - vx m 3 * vx m 1) * inv_det]).
Definition invert_matrix (dim : nat) (m : list R) : outcome (list R) :=
  match dim with 2 => invert2 m | 3 => invert3 m | _ => UB end%nat.

(** affine_transf.cpp 102-117: create_orthonormal_system.  Norms are asserted positive. *)
Definition aff_ortho (axis_x axis_y : list R) : outcome (list (list R)) :=
  assert_ (Rltb 0 (vec_norm axis_x))
   (e0 <- div_by axis_x (vec_norm axis_x) ;;
    let e2 := cross e0 axis_y in
    assert_ (Rltb 0 (vec_norm e2))
     (e2 <- div_by e2 (vec_norm e2) ;; Ret [e0; cross e2 e0; e2])).

(** affine_transf.cpp 122-150: create_reference_system_around_axis.  Line 146 uses [axis_y], not the guess. *)
Definition ref_around_axis (axis_z : list R) : outcome (list R * list R) :=
  assert_ (negb (is_zero default_tol (vec_norm axis_z)))
   (axis_z <- div_by axis_z (vec_norm axis_z) ;;
    let axis_y := cross axis_z [1; 0; 0] in
    let norm_axis_y := vec_norm axis_y in
    if Rltb (1 / 10000) norm_axis_y then
      axis_y <- div_by axis_y norm_axis_y ;; Ret (cross axis_y axis_z, axis_y)
    else
      let axis_x := cross [0; 1; 0] axis_z in
      axis_x <- div_by axis_x (vec_norm axis_x) ;; Ret (axis_x, cross axis_z axis_y)).

(** affine_transf.cpp 199-218: compute_coefs(origin, scale). *)
Definition coefs_scale (dim : nat) (origin : list R) (scale : R) : list R :=
  match dim with
  | 2%nat => [scale; 0; 0; scale; vx origin 0; vx origin 1]
  | _ => [scale; 0; 0; 0; scale; 0; 0; 0; scale; vx origin 0; vx origin 1; vx origin 2]
  end.
(** affine_transf.cpp 154: AffineTransf(origin), with scale one. *)
Definition translation (dim : nat) (origin : list R) : list R := coefs_scale dim origin 1.
(** affine_transf.cpp 220-258: compute_coefs, dim = 3. *)
Definition coefs_axes3 (origin axis_x axis_y : list R) (sx sy sz : R) : outcome (list R) :=
  assert_ (Rltb 0 sx) (assert_ (Rltb 0 sy) (assert_ (Rltb 0 sz)
   (system <- aff_ortho axis_x axis_y ;;
    let e0 := nth 0 system [] in let e1 := nth 1 system [] in let e2 := nth 2 system [] in
    Ret [sx * vx e0 0; sy * vx e1 0; sz * vx e2 0; sx * vx e0 1; sy * vx e1 1; sz * vx e2 1;
         sx * vx e0 2; sy * vx e1 2; sz * vx e2 2; vx origin 0; vx origin 1; vx origin 2]))).
(** affine_transf.cpp 260-289: compute_coefs, dim = 2. *)
Definition coefs_axes2 (origin axis_x : list R) (sx sy : R) : outcome (list R) :=
  assert_ (Rltb 0 sx) (assert_ (Rltb 0 sy)
   (assert_ (Rltb 0 (vec_norm axis_x))
    (e0 <- div_by axis_x (vec_norm axis_x) ;;
     let e1 := [- vx e0 1; vx e0 0] in
     Ret [sx * vx e0 0; sy * vx e1 0; sx * vx e0 1; sy * vx e1 1; vx origin 0; vx origin 1]))).

(** affine_transf.cpp 291-316: operator*.  The loops over i, j fill the entries [ind i j] and then [dim*dim + i]; the
    model lists the matrix entries by rows and then the translation (each is written once). *)
Definition ind (dim row col : nat) : nat := (row * dim + col)%nat.
Definition sum_loop (n : nat) (init : R) (f : nat -> R) : R := fold_left (fun acc k => acc + f k) (seq 0 n) init.
Definition compose (dim : nat) (lhs rhs : list R) : list R :=
  flat_map (fun i => map (fun j => sum_loop dim 0 (fun k => vx lhs (ind dim i k) * vx rhs (ind dim k j))) (seq 0 dim)) (seq 0 dim)
  ++ map (fun i => sum_loop dim (vx lhs (dim * dim + i)) (fun k => vx lhs (ind dim i k) * vx rhs (dim * dim + k))) (seq 0 dim).

(** affine_transf.cpp 318-341: inverse. *)
Definition inverse (dim : nat) (cf : list R) : outcome (list R) :=
  inv <- invert_matrix dim (map (vx cf) (seq 0 (dim * dim))) ;;
  Ret (inv ++ map (fun i => sum_loop dim 0 (fun k => - (vx inv (dim * i + k) * vx cf (dim * dim + k)))) (seq 0 dim)).

(** affine_transf.cpp 343-359: transform_point. *)
Definition transform_point (dim : nat) (c p : list R) : list R :=
  match dim with
  | 2%nat => [vx c 0 * vx p 0 + vx c 1 * vx p 1 + vx c 4; vx c 2 * vx p 0 + vx c 3 * vx p 1 + vx c 5]
  | _ => [vx c 0 * vx p 0 + vx c 1 * vx p 1 + vx c 2 * vx p 2 + vx c 9;
          vx c 3 * vx p 0 + vx c 4 * vx p 1 + vx c 5 * vx p 2 + vx c 10;
          vx c 6 * vx p 0 + vx c 7 * vx p 1 + vx c 8 * vx p 2 + vx c 11]
  end.
(** affine_transf.cpp 361-377: transform_vector (the transposed matrix). *)
Definition transform_vector (dim : nat) (c v : list R) : list R :=
  match dim with
  | 2%nat => [vx c 0 * vx v 0 + vx c 2 * vx v 1; vx c 1 * vx v 0 + vx c 3 * vx v 1]
  | _ => [vx c 0 * vx v 0 + vx c 3 * vx v 1 + vx c 6 * vx v 2;
          vx c 1 * vx v 0 + vx c 4 * vx v 1 + vx c 7 * vx v 2;
          vx c 2 * vx v 0 + vx c 5 * vx v 1 + vx c 8 * vx v 2]
  end.
(** affine_transf.cpp 379-424: transform_tensor; symmetric tensors store the upper triangle by rows. *)
Definition transform_tensor (dim : nat) (c t : list R) : list R :=
  let cf := vx c in let tn := vx t in
  match dim with
  | 2%nat =>
    [tn 0%nat * cf 0%nat * cf 0%nat + 2 * tn 1%nat * cf 0%nat * cf 2%nat + tn 2%nat * cf 2%nat * cf 2%nat;
     tn 0%nat * cf 0%nat * cf 1%nat + tn 1%nat * (cf 0%nat * cf 3%nat + cf 1%nat * cf 2%nat) + tn 2%nat * cf 2%nat * cf 3%nat;
     tn 0%nat * cf 1%nat * cf 1%nat + 2 * tn 1%nat * cf 1%nat * cf 3%nat + tn 2%nat * cf 3%nat * cf 3%nat]
  | _ =>
    [tn 0%nat * cf 0%nat * cf 0%nat + 2 * tn 1%nat * cf 0%nat * cf 3%nat + 2 * tn 2%nat * cf 0%nat * cf 6%nat
       + tn 3%nat * cf 3%nat * cf 3%nat + 2 * tn 4%nat * cf 3%nat * cf 6%nat + tn 5%nat * cf 6%nat * cf 6%nat;
     tn 0%nat * cf 0%nat * cf 1%nat + tn 1%nat * (cf 0%nat * cf 4%nat + cf 1%nat * cf 3%nat)
       + tn 2%nat * (cf 0%nat * cf 7%nat + cf 1%nat * cf 6%nat) + tn 3%nat * cf 3%nat * cf 4%nat
       + tn 4%nat * (cf 3%nat * cf 7%nat + cf 4%nat * cf 6%nat) + tn 5%nat * cf 6%nat * cf 7%nat;
     tn 0%nat * cf 0%nat * cf 2%nat + tn 1%nat * (cf 0%nat * cf 5%nat + cf 2%nat * cf 3%nat)
       + tn 2%nat * (cf 0%nat * cf 8%nat + cf 2%nat * cf 6%nat) + tn 3%nat * cf 3%nat * cf 5%nat
       + tn 4%nat * (cf 3%nat * cf 8%nat + cf 5%nat * cf 6%nat) + tn 5%nat * cf 6%nat * cf 8%nat;
     tn 0%nat * cf 1%nat * cf 1%nat + 2 * tn 1%nat * cf 1%nat * cf 4%nat + 2 * tn 2%nat * cf 1%nat * cf 7%nat
       + tn 3%nat * cf 4%nat * cf 4%nat + 2 * tn 4%nat * cf 4%nat * cf 7%nat + tn 5%nat * cf 7%nat * cf 7%nat;
     tn 0%nat * cf 1%nat * cf 2%nat + tn 1%nat * (cf 1%nat * cf 5%nat + cf 2%nat * cf 4%nat)
       + tn 2%nat * (cf 1%nat * cf 8%nat + cf 2%nat * cf 7%nat) + tn 3%nat * cf 4%nat * cf 5%nat
       + tn 4%nat * (cf 4%nat * cf 8%nat + cf 5%nat * cf 7%nat) + tn 5%nat * cf 7%nat * cf 8%nat;
     tn 0%nat * cf 2%nat * cf 2%nat + 2 * tn 1%nat * cf 2%nat * cf 5%nat + 2 * tn 2%nat * cf 2%nat * cf 8%nat
       + tn 3%nat * cf 5%nat * cf 5%nat + 2 * tn 4%nat * cf 5%nat * cf 8%nat + tn 5%nat * cf 8%nat * cf 8%nat]
  end.

(** ** ref_system.cpp: a reference system is its origin and its list of basis vectors. *)
Record ref_system := mk_ref { r_origin : list R; r_basis : list (list R) }.
(** ref_system.cpp 56-68: from two axes; a zero [axis_x] gives NaN, and then the assertion fails. *)
Definition ortho_axes3 (axis_x axis_y : list R) : outcome (list (list R)) :=
  if Reqb (vec_norm axis_x) 0 then Abort else
  let axis_x := vscale (1 / vec_norm axis_x) axis_x in
  let axis_z := cross axis_x axis_y in
  assert_ (Rltb 0 (vec_norm axis_z))
   (let axis_z := vscale (1 / vec_norm axis_z) axis_z in
    Ret [axis_x; cross axis_z axis_x; axis_z]).
(** ref_system.cpp 76-80 *)
Definition ortho1 (axis_x : list R) : outcome (list (list R)) := e <- div_by axis_x (vec_norm axis_x) ;; Ret [e].
(** ref_system.cpp 91-98 *)
Definition ortho2 (axis_x : list R) : outcome (list (list R)) :=
  e <- div_by axis_x (vec_norm axis_x) ;; Ret [e; [- vx e 1; vx e 0]].
(** ref_system.cpp 113-141: from the z axis. *)
Definition ortho3 (axis_z : list R) : outcome (list (list R)) :=
  assert_ (negb (is_zero default_tol (vec_norm axis_z)))
   (axis_z <- div_by axis_z (vec_norm axis_z) ;;
    let axis_y := cross axis_z [1; 0; 0] in
    let norm_axis_y := vec_norm axis_y in
    if Rltb (1 / 10) norm_axis_y then
      axis_y <- div_by axis_y norm_axis_y ;; Ret [cross axis_y axis_z; axis_y; axis_z]
    else
      let axis_x := cross [0; 1; 0] axis_z in
      axis_x <- div_by axis_x (vec_norm axis_x) ;; Ret [axis_x; cross axis_z axis_x; axis_z]).
(** ref_system.cpp 154-168: Cartesian systems. *)
Definition ref_cartesian (dim : nat) (origin : list R) : ref_system :=
  mk_ref origin match dim with 1%nat => [[1]] | 2%nat => [[1; 0]; [0; 1]] | _ => [[1; 0; 0]; [0; 1; 0]; [0; 0; 1]] end.
(** ref_system.cpp 170-173 *)
Definition ref_axis (dim : nat) (origin axis : list R) : outcome ref_system :=
  b <- match dim with 1%nat => ortho1 axis | 2%nat => ortho2 axis | _ => ortho3 axis end ;; Ret (mk_ref origin b).
(** ref_system.cpp 175-180 *)
Definition ref_axes (origin axis_x axis_y : list R) : outcome ref_system :=
  b <- ortho_axes3 axis_x axis_y ;; Ret (mk_ref origin b).
(** ref_system.cpp 192-201: is_Cartesian_oriented. *)
Definition is_cartesian (dim : nat) (s : ref_system) : bool :=
  forallb (fun i => tol_equal default_tol (vx (nth i (r_basis s) []) i) 1) (seq 0 dim).
