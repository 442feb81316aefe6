(** python/qugar/impl/impl_function.py and python/nanobind_wrappers/impl_functions.cpp: the implicit functions of the Python package. *)
From Coq Require Import Reals List Bool.
From Verif Require Import M_Bzr.
Import ListNotations.
Local Open Scope R_scope.

(** AffineTransf() (affine_transf.cpp 152-155): the transformation of origin Point<dim>(), taken as zero (algoim's vectors are external). *)
Definition identity_transf (dim : nat) : list R := translation dim (repeat 0 dim).

(** An implicit function object: a plain function of the library or a Bezier polynomial; [pf_dim] is its attribute dim. *)
Inductive impl := Plain (f : func) | Bzr (q : poly).
Record pyfunc := { pf_dim : nat; pf_impl : impl }.
(** impl_functions.cpp 56-71 and impl_function.py 53-71: eval, at a point. *)
Definition ieval (f : impl) (p : list R) : R := match f with Plain g => fval g p | Bzr q => bezier_eval q p end.
(** impl_functions.cpp 56-71: eval at an array of points. *)
Definition pyeval (f : pyfunc) (pts : list (list R)) : outcome (list R) :=
  assert_ (forallb (fun p => Nat.eqb (length p) (pf_dim f)) pts) (Ret (map (ieval (pf_impl f)) pts)).

(** The arguments that the package passes to the bindings; arrays are one-dimensional, and reference systems and affine transformations know their dimension. *)
Inductive pyarg := PReal (r : R) | PBool (b : bool) | PArr (a : list R) | PRef (dim : nat) (s : ref_system) | PAff (dim : nat) (t : list R).
Inductive binding :=
  | B_disk | B_sphere | B_ellipse | B_ellipsoid | B_cylinder | B_annulus | B_torus | B_constant (dim : nat) | B_plane | B_line
  | B_dim_linear | B_square_no_arg (dim : nat) | B_square | B_tpms (k : tpms_kind).
Definition plain (dim : nat) (f : outcome func) : outcome pyfunc := g <- f ;; Ret {| pf_dim := dim; pf_impl := Plain g |}.
Definition bzr (dim : nat) (q : outcome poly) : outcome pyfunc := g <- q ;; Ret {| pf_dim := dim; pf_impl := Bzr g |}.
Definition choose (dim : nat) (use_bzr : bool) (q : outcome poly) (f : outcome func) : outcome pyfunc := if use_bzr then bzr dim q else plain dim f.
Definition sized (n : nat) (a : list R) (k : outcome pyfunc) : outcome pyfunc := if Nat.eqb (length a) n then k else Abort.

(** impl_functions.cpp 98-723: the overloads registered under each name (2D before 3D), tried in order; no overload: TypeError. The defaults are those of the
    constructors of primitive_funcs_lib.cpp: 45-48 (center), 142-150 (cylinder), 261-264 (reference system), 399-402, 520-528 (torus), 793-801 (plane). *)
Definition cpp_call (f : binding) (args : list pyarg) : outcome pyfunc :=
  match f, args with
  | B_sphere, [PReal r; PBool b] => choose 3 b (sphere_bzr 3 r (repeat 0 3)) (sphere 3 r (repeat 0 3))
  | B_sphere, [PReal r; PArr c; PBool b] => sized 3 c (choose 3 b (sphere_bzr 3 r c) (sphere 3 r c))
  | B_disk, [PReal r; PBool b] => choose 2 b (sphere_bzr 2 r (repeat 0 2)) (sphere 2 r (repeat 0 2))
  | B_disk, [PReal r; PArr c; PBool b] => sized 2 c (choose 2 b (sphere_bzr 2 r c) (sphere 2 r c))
  | B_ellipsoid, [PArr s; PBool b] => sized 3 s (choose 3 b (ellipsoid_bzr 3 s (ref_cartesian 3 (repeat 0 3))) (ellipsoid 3 s (ref_cartesian 3 (repeat 0 3))))
  | B_ellipsoid, [PArr s; PRef 3 y; PBool b] => sized 3 s (choose 3 b (ellipsoid_bzr 3 s y) (ellipsoid 3 s y))
  | B_ellipse, [PArr s; PBool b] => sized 2 s (choose 2 b (ellipsoid_bzr 2 s (ref_cartesian 2 (repeat 0 2))) (ellipsoid 2 s (ref_cartesian 2 (repeat 0 2))))
  | B_ellipse, [PArr s; PRef 2 y; PBool b] => sized 2 s (choose 2 b (ellipsoid_bzr 2 s y) (ellipsoid 2 s y))
  | B_cylinder, [PReal r; PArr o; PBool b] => sized 3 o (choose 3 b (cylinder_bzr r o [0; 0; 1]) (cylinder r o [0; 0; 1]))
  | B_cylinder, [PReal r; PArr o; PArr a; PBool b] => sized 3 o (sized 3 a (choose 3 b (cylinder_bzr r o a) (cylinder r o a)))
  | B_annulus, [PReal ri; PReal ro; PBool b] => choose 2 b (annulus_bzr ri ro [0; 0]) (annulus ri ro [0; 0])
  | B_annulus, [PReal ri; PReal ro; PArr c; PBool b] => sized 2 c (choose 2 b (annulus_bzr ri ro c) (annulus ri ro c))
  | B_torus, [PReal R0; PReal r0; PBool b] => choose 3 b (torus_bzr R0 r0 [0; 0; 0] [0; 0; 1]) (torus R0 r0 [0; 0; 0] [0; 0; 1])
  | B_torus, [PReal R0; PReal r0; PArr c; PBool b] => sized 3 c (choose 3 b (torus_bzr R0 r0 c [0; 0; 1]) (torus R0 r0 c [0; 0; 1]))
  | B_torus, [PReal R0; PReal r0; PArr c; PArr a; PBool b] => sized 3 c (sized 3 a (choose 3 b (torus_bzr R0 r0 c a) (torus R0 r0 c a)))
  | B_square_no_arg dim, [] => plain dim (with_transf dim (identity_transf dim) (square dim))
  | B_square, [PAff dim t] => plain dim (with_transf dim t (square dim))
  | B_plane, [PBool b] => choose 3 b (plane_bzr 3 (repeat 0 3) [1; 0; 0]) (Ret (plane 3 (repeat 0 3) [1; 0; 0]))
  | B_plane, [PArr o; PArr n; PBool b] => sized 3 o (sized 3 n (choose 3 b (plane_bzr 3 o n) (Ret (plane 3 o n))))
  | B_line, [PBool b] => choose 2 b (plane_bzr 2 (repeat 0 2) [1; 0]) (Ret (plane 2 (repeat 0 2) [1; 0]))
  | B_line, [PArr o; PArr n; PBool b] => sized 2 o (sized 2 n (choose 2 b (plane_bzr 2 o n) (Ret (plane 2 o n))))
  | B_constant dim, [PReal v; PBool b] => choose dim b (constant_bzr dim v) (Ret (M_Funcs.constant dim v))
  | B_dim_linear, [PArr c] =>
      if Nat.eqb (length c) 4 then plain 2 (with_transf 2 (identity_transf 2) (dim_linear 2 c))
      else if Nat.eqb (length c) 8 then plain 3 (with_transf 3 (identity_transf 3) (dim_linear 3 c)) else Abort
  | B_dim_linear, [PArr c; PAff dim t] =>
      if Nat.eqb (length c) 4 && Nat.eqb dim 2 then plain 2 (with_transf 2 t (dim_linear 2 c))
      else if Nat.eqb (length c) 8 && Nat.eqb dim 3 then plain 3 (with_transf 3 t (dim_linear 3 c)) else Abort
  (* tpms_lib.hpp 35-60: in 2D the third parameter stays 1 and z defaults to 0 *)
  | B_tpms k, [PArr m] =>
      if Nat.eqb (length m) 2 then plain 2 (Ret (tpms_func k 2 (m ++ [1]) 0)) else if Nat.eqb (length m) 3 then plain 3 (Ret (tpms_func k 3 m 0)) else Abort
  | B_tpms k, [PArr m; PReal z] => if Nat.eqb (length m) 2 then plain 2 (Ret (tpms_func k 2 (m ++ [1]) z)) else Abort
  | _, _ => Abort
  end.

(** impl_function.py 95-126. *)
Definition create_disk (radius : R) (center : option (list R)) (use_bzr : bool) : outcome pyfunc :=
  assert_ (Rltb 0 radius)
    match center with
    | None => cpp_call B_disk [PReal radius; PBool use_bzr]
    | Some c => assert_ (Nat.eqb (length c) 2) (cpp_call B_disk [PReal radius; PArr c; PBool use_bzr])
    end.
(** impl_function.py 129-160. *)
Definition create_sphere (radius : R) (center : option (list R)) (use_bzr : bool) : outcome pyfunc :=
  assert_ (Rltb 0 radius)
    match center with
    | None => cpp_call B_sphere [PReal radius; PBool use_bzr]
    | Some c => assert_ (Nat.eqb (length c) 3) (cpp_call B_sphere [PReal radius; PArr c; PBool use_bzr])
    end.
(** impl_function.py 163-194. *)
Definition create_ellipse (semi_axes : list R) (ref : option (nat * ref_system)) (use_bzr : bool) : outcome pyfunc :=
  assert_ (Nat.eqb (length semi_axes) 2) (assert_ (forallb (fun s => Rltb 0 s) semi_axes)
    match ref with
    | None => cpp_call B_ellipse [PArr semi_axes; PBool use_bzr]
    | Some (d, y) => cpp_call B_ellipse [PArr semi_axes; PRef d y; PBool use_bzr]
    end).
(** impl_function.py 197-228: the signs are not checked. *)
Definition create_ellipsoid (semi_axes : list R) (ref : option (nat * ref_system)) (use_bzr : bool) : outcome pyfunc :=
  assert_ (Nat.eqb (length semi_axes) 3)
    match ref with
    | None => cpp_call B_ellipsoid [PArr semi_axes; PBool use_bzr]
    | Some (d, y) => cpp_call B_ellipsoid [PArr semi_axes; PRef d y; PBool use_bzr]
    end.
(** impl_function.py 231-265. *)
Definition create_cylinder (radius : R) (origin : list R) (axis : option (list R)) (use_bzr : bool) : outcome pyfunc :=
  assert_ (Nat.eqb (length origin) 3) (assert_ (Rltb 0 radius)
    match axis with
    | None => cpp_call B_cylinder [PReal radius; PArr origin; PBool use_bzr]
    | Some a => cpp_call B_cylinder [PReal radius; PArr origin; PArr a; PBool use_bzr]
    end).
(** impl_function.py 268-307. *)
Definition create_annulus (inner_radius outer_radius : R) (center : option (list R)) (use_bzr : bool) : outcome pyfunc :=
  assert_ (Rltb 0 inner_radius) (assert_ (Rltb 0 outer_radius)
    match center with
    | None => cpp_call B_annulus [PReal inner_radius; PReal outer_radius; PBool use_bzr]
    | Some c => assert_ (Nat.eqb (length c) 2) (cpp_call B_annulus [PReal inner_radius; PReal outer_radius; PArr c; PBool use_bzr])
    end).
(** impl_function.py 310-366. *)
Definition create_torus (major_radius minor_radius : R) (center axis : option (list R)) (use_bzr : bool) : outcome pyfunc :=
  assert_ (Rltb 0 major_radius) (assert_ (Rltb 0 minor_radius)
    match center, axis with
    | None, None => cpp_call B_torus [PReal major_radius; PReal minor_radius; PBool use_bzr]
    | None, Some a => cpp_call B_torus [PReal major_radius; PReal minor_radius; PArr (repeat 0 3); PArr a; PBool use_bzr]
    | Some c, None => cpp_call B_torus [PReal major_radius; PReal minor_radius; PArr c; PBool use_bzr]
    | Some c, Some a => cpp_call B_torus [PReal major_radius; PReal minor_radius; PArr c; PArr a; PBool use_bzr]
    end).
(** impl_function.py 369-397. *)
Definition create_constant (value : R) (dim : nat) (use_bzr : bool) : outcome pyfunc :=
  assert_ (Nat.eqb dim 2 || Nat.eqb dim 3)
    (if Nat.eqb dim 2 then cpp_call (B_constant 2) [PReal value; PBool use_bzr] else cpp_call (B_constant 3) [PReal value; PBool use_bzr]).
(** impl_function.py 400-438. *)
Definition create_plane (origin normal : option (list R)) (use_bzr : bool) : outcome pyfunc :=
  match origin, normal with
  | None, None => cpp_call B_plane [PBool use_bzr]
  | None, Some n => assert_ (Nat.eqb (length n) 3) (cpp_call B_plane [PArr (repeat 0 3); PArr n; PBool use_bzr])
  | Some o, None => assert_ (Nat.eqb (length o) 3) (cpp_call B_plane [PArr o; PArr [1; 0; 0]; PBool use_bzr])
  | Some o, Some n => assert_ (Nat.eqb (length o) 3) (assert_ (Nat.eqb (length n) 3) (cpp_call B_plane [PArr o; PArr n; PBool use_bzr]))
  end.
(** impl_function.py 441-479. *)
Definition create_line (origin normal : option (list R)) (use_bzr : bool) : outcome pyfunc :=
  match origin, normal with
  | None, None => cpp_call B_line [PBool use_bzr]
  | None, Some n => assert_ (Nat.eqb (length n) 2) (cpp_call B_line [PArr (repeat 0 2); PArr n; PBool use_bzr])
  | Some o, None => assert_ (Nat.eqb (length o) 2) (cpp_call B_line [PArr o; PArr [1; 0]; PBool use_bzr])
  | Some o, Some n => assert_ (Nat.eqb (length o) 2) (assert_ (Nat.eqb (length n) 2) (cpp_call B_line [PArr o; PArr n; PBool use_bzr]))
  end.
(** impl_function.py 482-526. *)
Definition create_dim_linear (coefs : list R) (affine : option (nat * list R)) : outcome pyfunc :=
  assert_ (Nat.eqb (length coefs) 4 || Nat.eqb (length coefs) 8)
    match affine with
    | None => cpp_call B_dim_linear [PArr coefs]
    | Some (d, t) => let dim := if Nat.eqb d 2 then 2%nat else 3%nat in
        assert_ (Nat.eqb (length coefs) (2 ^ dim)) (cpp_call B_dim_linear [PArr coefs; PAff d t])
    end.
(** impl_function.py 529-573. *)
Definition create_box (affine : option (nat * list R)) (dim : option nat) : outcome pyfunc :=
  match affine with
  | None => let dim := match dim with None => 2%nat | Some d => d end in
      assert_ (Nat.eqb dim 2 || Nat.eqb dim 3) (if Nat.eqb dim 2 then cpp_call (B_square_no_arg 2) [] else cpp_call (B_square_no_arg 3) [])
  | Some (d, t) =>
      assert_ (match dim with None => false | Some dim => Nat.eqb dim (if Nat.eqb d 2 then 2 else 3) end)
        (if match dim with Some 2%nat => true | _ => false end then cpp_call (B_square_no_arg 2) [PAff d t] else cpp_call (B_square_no_arg 3) [PAff d t])
  end.
(** impl_function.py 642-685, and 688-871 for each of the six functions. *)
Definition create_tpms (k : tpms_kind) (periods : list R) (z : option R) : outcome pyfunc :=
  assert_ (Nat.eqb (length periods) 2 || Nat.eqb (length periods) 3)
    (assert_ (Nat.eqb (length periods) 2 || match z with None => true | Some _ => false end)
      match z with None => cpp_call (B_tpms k) [PArr periods] | Some z => cpp_call (B_tpms k) [PArr periods; PReal z] end).

(** impl_functions.cpp 740-763 and impl_function.py 576-586: the 2D overload takes 2D functions, the 3D one 3D functions. *)
Definition to_func (f : impl) : func := match f with Plain g => g | Bzr q => mk_func (bezier_eval q) (fun _ => []) (fun _ => []) end.
Definition create_negative (f : pyfunc) : outcome pyfunc :=
  match pf_impl f with
  | Bzr q => bzr (pf_dim f) (Ret (bezier_negate q))
  | Plain g => plain (pf_dim f) (Ret (negative g))
  end.
(** impl_functions.cpp 765-789, 791-815 and impl_function.py 589-619: functions of different dimensions match no overload. *)
Definition create_functions_addition (f g : pyfunc) : outcome pyfunc :=
  if negb (Nat.eqb (pf_dim f) (pf_dim g)) then Abort else
  match pf_impl f, pf_impl g with
  | Bzr p, Bzr q => bzr (pf_dim f) (bezier_add p q)
  | a, b => plain (pf_dim f) (Ret (add_functions (to_func a) (to_func b)))
  end.
Definition create_functions_subtraction (f g : pyfunc) : outcome pyfunc :=
  if negb (Nat.eqb (pf_dim f) (pf_dim g)) then Abort else
  match pf_impl f, pf_impl g with
  | Bzr p, Bzr q => bzr (pf_dim f) (bezier_sub p q)
  | a, b => plain (pf_dim f) (Ret (subtract_functions (to_func a) (to_func b)))
  end.
(** impl_functions.cpp 720-738 and impl_function.py 622-639. *)
Definition create_affinely_transformed (f : pyfunc) (affine : nat * list R) : outcome pyfunc :=
  if Nat.eqb (pf_dim f) (fst affine) then plain (pf_dim f) (transformed (pf_dim f) (to_func (pf_impl f)) (snd affine)) else Abort.
