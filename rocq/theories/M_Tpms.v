(** Model of cpp/qugar/tpms_lib.cpp (and the base class in include/qugar/tpms_lib.hpp 34-60).  [m] is mnq_ (three entries; the
    third is 1 in 2D, tpms_lib.hpp 40-44, 56), [p] the 3D point.  Generated from the C++ expressions by a text substitution:
    [k2 i] is pi_2_m(i) = 2 pi m_i, [k4 i] is pi_4_m(i) = 4 pi m_i, [t2 i] and [t4 i] are those times the coordinate. *)
From Verif Require Export M_Affine.
Open Scope R_scope.

Definition tk2 (m : list R) (i : nat) : R := (2 * PI) * vx m i.
Definition tk4 (m : list R) (i : nat) : R := 2 * tk2 m i.
Definition tt2 (m p : list R) (i : nat) : R := tk2 m i * vx p i.
Definition tt4 (m p : list R) (i : nat) : R := 2 * tt2 m p i.

(** tpms_lib.cpp 83-89 *)
Definition schoen_eval (m p : list R) : R :=
  let k2 := tk2 m in let k4 := tk4 m in let t2 := tt2 m p in let t4 := tt4 m p in
  sin (t2 0%nat) * cos (t2 1%nat) + sin (t2 1%nat) * cos (t2 2%nat) + sin (t2 2%nat) * cos (t2 0%nat).
(** tpms_lib.cpp 91-108; the third entry only for dim = 3 *)
Definition schoen_grad (dim : nat) (m p : list R) : list R :=
  let k2 := tk2 m in let k4 := tk4 m in let t2 := tt2 m p in let t4 := tt4 m p in
  let g0 := (cos (t2 0%nat) * cos (t2 1%nat) - sin (t2 0%nat) * sin (t2 2%nat)) * (k2 0%nat) in
  let g1 := (cos (t2 1%nat) * cos (t2 2%nat) - sin (t2 1%nat) * sin (t2 0%nat)) * (k2 1%nat) in
  let g2 := (cos (t2 2%nat) * cos (t2 0%nat) - sin (t2 2%nat) * sin (t2 1%nat)) * (k2 2%nat) in
  match dim with 2%nat => [g0; g1] | _ => [g0; g1; g2] end.
(** tpms_lib.cpp 110-134; entries xx, xy, yy for dim = 2, else xx, xy, xz, yy, yz, zz *)
Definition schoen_hess (dim : nat) (m p : list R) : list R :=
  let k2 := tk2 m in let k4 := tk4 m in let t2 := tt2 m p in let t4 := tt4 m p in
  let h0 := (k2 0%nat) * (k2 0%nat) * (-sin (t2 0%nat) * cos (t2 1%nat) - sin (t2 2%nat) * cos (t2 0%nat)) in
  let h1 := (k2 0%nat) * (k2 1%nat) * (-cos (t2 0%nat) * sin (t2 1%nat)) in
  let hyy := (k2 1%nat) * (k2 1%nat) * (-sin (t2 1%nat) * cos (t2 2%nat) - sin (t2 0%nat) * cos (t2 1%nat)) in
  let h2 := (k2 0%nat) * (k2 2%nat) * (-cos (t2 2%nat) * sin (t2 2%nat)) in
  let h4 := (k2 1%nat) * (k2 2%nat) * (-cos (t2 1%nat) * sin (t2 2%nat)) in
  let h5 := (k2 2%nat) * (k2 2%nat) * (-sin (t2 2%nat) * cos (t2 0%nat) - sin (t2 1%nat) * cos (t2 2%nat)) in
  match dim with 2%nat => [h0; h1; hyy] | _ => [h0; h1; h2; hyy; h4; h5] end.
(** tpms_lib.cpp 139-148 *)
Definition schoeniwp_eval (m p : list R) : R :=
  let k2 := tk2 m in let k4 := tk4 m in let t2 := tt2 m p in let t4 := tt4 m p in
  2 * (cos (t2 0%nat) * cos (t2 1%nat) + cos (t2 1%nat) * cos (t2 2%nat) + cos (t2 2%nat) * cos (t2 0%nat)) - cos (t4 0%nat) - cos (t4 1%nat) - cos (t4 2%nat).
(** tpms_lib.cpp 150-169; the third entry only for dim = 3 *)
Definition schoeniwp_grad (dim : nat) (m p : list R) : list R :=
  let k2 := tk2 m in let k4 := tk4 m in let t2 := tt2 m p in let t4 := tt4 m p in
  let g0 := (sin (t4 0%nat) - sin (t2 0%nat) * (cos (t2 1%nat) + cos (t2 2%nat))) * (k4 0%nat) in
  let g1 := (sin (t4 1%nat) - sin (t2 1%nat) * (cos (t2 0%nat) + cos (t2 2%nat))) * (k4 0%nat) in
  let g2 := (sin (t4 2%nat) - sin (t2 2%nat) * (cos (t2 0%nat) + cos (t2 1%nat))) * (k4 2%nat) in
  match dim with 2%nat => [g0; g1] | _ => [g0; g1; g2] end.
(** tpms_lib.cpp 171-200; entries xx, xy, yy for dim = 2, else xx, xy, xz, yy, yz, zz *)
Definition schoeniwp_hess (dim : nat) (m p : list R) : list R :=
  let k2 := tk2 m in let k4 := tk4 m in let t2 := tt2 m p in let t4 := tt4 m p in
  let h0 := -(k2 0%nat) * (k4 0%nat) * (cos (t2 0%nat) * cos (t2 1%nat) + cos (t2 2%nat) * cos (t2 0%nat) - 2 * cos (t4 0%nat)) in
  let h1 := (k2 0%nat) * (k4 1%nat) * sin (t2 0%nat) * sin (t2 1%nat) in
  let hyy := -(k2 1%nat) * (k4 1%nat) * (cos (t2 0%nat) * cos (t2 1%nat) + cos (t2 1%nat) * cos (t2 2%nat) - 2 * cos (t4 1%nat)) in
  let h2 := (k2 0%nat) * (k4 2%nat) * sin (t2 2%nat) * sin (t2 0%nat) in
  let h4 := (k2 1%nat) * (k4 2%nat) * sin (t2 1%nat) * sin (t2 2%nat) in
  let h5 := -(k2 2%nat) * (k4 2%nat) * (cos (t2 1%nat) * cos (t2 2%nat) + cos (t2 2%nat) * cos (t2 0%nat) - 2 * cos (t4 2%nat)) in
  match dim with 2%nat => [h0; h1; hyy] | _ => [h0; h1; h2; hyy; h4; h5] end.
(** tpms_lib.cpp 204-213 *)
Definition schoenfrd_eval (m p : list R) : R :=
  let k2 := tk2 m in let k4 := tk4 m in let t2 := tt2 m p in let t4 := tt4 m p in
  4 * cos (t2 0%nat) * cos (t2 1%nat) * cos (t2 2%nat) - cos (t4 0%nat) * cos (t4 1%nat) - cos (t4 1%nat) * cos (t4 2%nat) - cos (t4 2%nat) * cos (t4 0%nat).
(** tpms_lib.cpp 215-239; the third entry only for dim = 3 *)
Definition schoenfrd_grad (dim : nat) (m p : list R) : list R :=
  let k2 := tk2 m in let k4 := tk4 m in let t2 := tt2 m p in let t4 := tt4 m p in
  let g0 := (-2 * sin (t2 0%nat) * cos (t2 1%nat) * cos (t2 2%nat) + sin (t4 0%nat) * cos (t4 1%nat) + cos (t4 2%nat) * sin (t4 0%nat)) * (k4 0%nat) in
  let g1 := (-2 * cos (t2 0%nat) * sin (t2 1%nat) * cos (t2 2%nat) + cos (t4 0%nat) * sin (t4 1%nat) + sin (t4 1%nat) * cos (t4 2%nat)) * (k4 1%nat) in
  let g2 := (-2 * cos (t2 0%nat) * cos (t2 1%nat) * sin (t2 2%nat) + cos (t4 1%nat) * sin (t4 2%nat) + sin (t4 2%nat) * cos (t4 0%nat)) * (k4 2%nat) in
  match dim with 2%nat => [g0; g1] | _ => [g0; g1; g2] end.
(** tpms_lib.cpp 241-279; entries xx, xy, yy for dim = 2, else xx, xy, xz, yy, yz, zz *)
Definition schoenfrd_hess (dim : nat) (m p : list R) : list R :=
  let k2 := tk2 m in let k4 := tk4 m in let t2 := tt2 m p in let t4 := tt4 m p in
  let h0 := (k2 0%nat) * (k4 0%nat) * (-2 * cos (t2 0%nat) * cos (t2 1%nat) * cos (t2 2%nat) + 2 * cos (t4 0%nat) * cos (t4 1%nat) + 2 * cos (t4 2%nat) * cos (t4 0%nat)) in
  let h1 := (k2 0%nat) * (k4 1%nat) * (2 * sin (t2 0%nat) * sin (t2 1%nat) * cos (t2 2%nat) - 2 * sin (t4 0%nat) * sin (t4 1%nat)) in
  let hyy := (k2 1%nat) * (k4 1%nat) * (-2 * cos (t2 0%nat) * cos (t2 1%nat) * cos (t2 2%nat) + 2 * cos (t4 0%nat) * cos (t4 1%nat) + 2 * cos (t4 1%nat) * cos (t4 2%nat)) in
  let h2 := (k2 0%nat) * (k4 2%nat) * (2 * sin (t2 0%nat) * cos (t2 1%nat) * sin (t2 2%nat) - 2 * sin (t4 2%nat) * sin (t4 0%nat)) in
  let h4 := (k2 1%nat) * (k4 2%nat) * (2 * cos (t2 0%nat) * sin (t2 1%nat) * sin (t2 2%nat) - 2 * sin (t4 1%nat) * sin (t4 2%nat)) in
  let h5 := (k2 2%nat) * (k4 2%nat) * (-2 * cos (t2 0%nat) * cos (t2 1%nat) * cos (t2 2%nat) + 2 * cos (t4 1%nat) * cos (t4 2%nat) + 2 * cos (t4 2%nat) * cos (t4 0%nat)) in
  match dim with 2%nat => [h0; h1; hyy] | _ => [h0; h1; h2; hyy; h4; h5] end.
(** tpms_lib.cpp 283-292 *)
Definition fischerkochs_eval (m p : list R) : R :=
  let k2 := tk2 m in let k4 := tk4 m in let t2 := tt2 m p in let t4 := tt4 m p in
  cos (t4 0%nat) * sin (t2 1%nat) * cos (t2 2%nat) + cos (t2 0%nat) * cos (t4 1%nat) * sin (t2 2%nat) + sin (t2 0%nat) * cos (t2 1%nat) * cos (t4 2%nat).
(** tpms_lib.cpp 294-320; the third entry only for dim = 3 *)
Definition fischerkochs_grad (dim : nat) (m p : list R) : list R :=
  let k2 := tk2 m in let k4 := tk4 m in let t2 := tt2 m p in let t4 := tt4 m p in
  let g0 := (-2 * sin (t4 0%nat) * sin (t2 1%nat) * cos (t2 2%nat) - sin (t2 0%nat) * cos (t4 1%nat) * sin (t2 2%nat) + cos (t2 0%nat) * cos (t2 1%nat) * cos (t4 2%nat)) * (k2 0%nat) in
  let g1 := (cos (t4 0%nat) * cos (t2 1%nat) * cos (t2 2%nat) - 2 * cos (t2 0%nat) * sin (t4 1%nat) * sin (t2 2%nat) - sin (t2 0%nat) * sin (t2 1%nat) * cos (t4 2%nat)) * (k2 1%nat) in
  let g2 := (-cos (t4 0%nat) * sin (t2 1%nat) * sin (t2 2%nat) + cos (t2 0%nat) * cos (t4 1%nat) * cos (t2 2%nat) - 2 * sin (t2 0%nat) * cos (t2 1%nat) * sin (t4 2%nat)) * (k2 2%nat) in
  match dim with 2%nat => [g0; g1] | _ => [g0; g1; g2] end.
(** tpms_lib.cpp 322-356; entries xx, xy, yy for dim = 2, else xx, xy, xz, yy, yz, zz *)
Definition fischerkochs_hess (dim : nat) (m p : list R) : list R :=
  let k2 := tk2 m in let k4 := tk4 m in let t2 := tt2 m p in let t4 := tt4 m p in
  let h0 := -(k4 0%nat) * (k4 0%nat) * cos (t4 0%nat) * sin (t2 1%nat) * cos (t2 2%nat) - (k2 0%nat) * (k2 0%nat) * cos (t2 0%nat) * cos (t4 1%nat) * sin (t2 2%nat) - (k2 0%nat) * (k2 0%nat) * sin (t2 0%nat) * cos (t2 1%nat) * cos (t4 2%nat) in
  let h1 := -(k4 0%nat) * (k2 1%nat) * sin (t4 0%nat) * cos (t2 1%nat) * cos (t2 2%nat) + (k2 0%nat) * (k4 1%nat) * sin (t2 0%nat) * sin (t4 1%nat) * sin (t2 2%nat) - (k2 0%nat) * (k2 1%nat) * cos (t2 0%nat) * sin (t2 1%nat) * cos (t4 2%nat) in
  let hyy := -(k2 1%nat) * (k2 1%nat) * cos (t4 0%nat) * sin (t2 1%nat) * cos (t2 2%nat) - (k4 1%nat) * (k4 1%nat) * cos (t2 0%nat) * cos (t4 1%nat) * sin (t2 2%nat) - (k2 1%nat) * (k2 1%nat) * sin (t2 0%nat) * cos (t2 1%nat) * cos (t4 2%nat) in
  let h2 := (k4 0%nat) * (k2 2%nat) * sin (t4 0%nat) * sin (t2 1%nat) * sin (t2 2%nat) - (k2 0%nat) * (k2 2%nat) * sin (t2 0%nat) * cos (t4 1%nat) * cos (t2 2%nat) - (k2 0%nat) * (k4 2%nat) * cos (t2 0%nat) * cos (t2 1%nat) * sin (t4 2%nat) in
  let h4 := -(k2 1%nat) * (k2 2%nat) * cos (t4 0%nat) * cos (t2 1%nat) * sin (t2 2%nat) - (k4 1%nat) * (k2 2%nat) * cos (t2 0%nat) * sin (t4 1%nat) * cos (t2 2%nat) + (k2 1%nat) * (k4 2%nat) * sin (t2 0%nat) * sin (t2 1%nat) * sin (t4 2%nat) in
  let h5 := -(k2 2%nat) * (k2 2%nat) * cos (t4 0%nat) * sin (t2 1%nat) * cos (t2 2%nat) - (k2 2%nat) * (k2 2%nat) * cos (t2 0%nat) * cos (t4 1%nat) * sin (t2 2%nat) - (k4 2%nat) * (k4 2%nat) * sin (t2 0%nat) * cos (t2 1%nat) * cos (t4 2%nat) in
  match dim with 2%nat => [h0; h1; hyy] | _ => [h0; h1; h2; hyy; h4; h5] end.
(** tpms_lib.cpp 360-367 *)
Definition schwarzdiamond_eval (m p : list R) : R :=
  let k2 := tk2 m in let k4 := tk4 m in let t2 := tt2 m p in let t4 := tt4 m p in
  cos (t2 0%nat) * cos (t2 1%nat) * cos (t2 2%nat) - sin (t2 0%nat) * sin (t2 1%nat) * sin (t2 2%nat).
(** tpms_lib.cpp 369-391; the third entry only for dim = 3 *)
Definition schwarzdiamond_grad (dim : nat) (m p : list R) : list R :=
  let k2 := tk2 m in let k4 := tk4 m in let t2 := tt2 m p in let t4 := tt4 m p in
  let g0 := -(sin (t2 0%nat) * cos (t2 1%nat) * cos (t2 2%nat) + cos (t2 0%nat) * sin (t2 1%nat) * sin (t2 2%nat)) * (k2 0%nat) in
  let g1 := -(cos (t2 0%nat) * sin (t2 1%nat) * cos (t2 2%nat) + sin (t2 0%nat) * cos (t2 1%nat) * sin (t2 2%nat)) * (k2 1%nat) in
  let g2 := -(cos (t2 0%nat) * cos (t2 1%nat) * sin (t2 2%nat) + sin (t2 0%nat) * sin (t2 1%nat) * cos (t2 2%nat)) * (k2 2%nat) in
  match dim with 2%nat => [g0; g1] | _ => [g0; g1; g2] end.
(** tpms_lib.cpp 393-426; entries xx, xy, yy for dim = 2, else xx, xy, xz, yy, yz, zz *)
Definition schwarzdiamond_hess (dim : nat) (m p : list R) : list R :=
  let k2 := tk2 m in let k4 := tk4 m in let t2 := tt2 m p in let t4 := tt4 m p in
  let h0 := -(k2 0%nat) * (k2 0%nat) * (cos (t2 0%nat) * cos (t2 1%nat) * cos (t2 2%nat) - sin (t2 0%nat) * sin (t2 1%nat) * sin (t2 2%nat)) in
  let h1 := -(k2 0%nat) * (k2 1%nat) * (-sin (t2 0%nat) * sin (t2 1%nat) * cos (t2 2%nat) + cos (t2 0%nat) * cos (t2 1%nat) * sin (t2 2%nat)) in
  let hyy := -(k2 1%nat) * (k2 1%nat) * (cos (t2 0%nat) * cos (t2 1%nat) * cos (t2 2%nat) - sin (t2 0%nat) * sin (t2 1%nat) * sin (t2 2%nat)) in
  let h2 := -(k2 0%nat) * (k2 2%nat) * (-sin (t2 0%nat) * cos (t2 1%nat) * sin (t2 2%nat) + cos (t2 0%nat) * sin (t2 1%nat) * cos (t2 2%nat)) in
  let h4 := -(k2 1%nat) * (k2 2%nat) * (-cos (t2 0%nat) * sin (t2 1%nat) * sin (t2 2%nat) + sin (t2 0%nat) * cos (t2 1%nat) * cos (t2 2%nat)) in
  let h5 := -(k2 2%nat) * (k2 2%nat) * (cos (t2 0%nat) * cos (t2 1%nat) * cos (t2 2%nat) - sin (t2 0%nat) * sin (t2 1%nat) * sin (t2 2%nat)) in
  match dim with 2%nat => [h0; h1; hyy] | _ => [h0; h1; h2; hyy; h4; h5] end.
(** tpms_lib.cpp 430-436 *)
Definition schwarzprimitive_eval (m p : list R) : R :=
  let k2 := tk2 m in let k4 := tk4 m in let t2 := tt2 m p in let t4 := tt4 m p in
  cos (t2 0%nat) + cos (t2 1%nat) + cos (t2 2%nat).
(** tpms_lib.cpp 438-452; the third entry only for dim = 3 *)
Definition schwarzprimitive_grad (dim : nat) (m p : list R) : list R :=
  let k2 := tk2 m in let k4 := tk4 m in let t2 := tt2 m p in let t4 := tt4 m p in
  let g0 := -sin (t2 0%nat) * (k2 0%nat) in
  let g1 := -sin (t2 1%nat) * (k2 1%nat) in
  let g2 := -sin (t2 2%nat) * (k2 2%nat) in
  match dim with 2%nat => [g0; g1] | _ => [g0; g1; g2] end.
(** tpms_lib.cpp 454-478; entries xx, xy, yy for dim = 2, else xx, xy, xz, yy, yz, zz *)
Definition schwarzprimitive_hess (dim : nat) (m p : list R) : list R :=
  let k2 := tk2 m in let k4 := tk4 m in let t2 := tt2 m p in let t4 := tt4 m p in
  let h0 := -(k2 0%nat * k2 0%nat) * cos (t2 0%nat) in
  let h1 := 0 in
  let hyy := -(k2 1%nat * k2 1%nat) * cos (t2 1%nat) in
  let h2 := 0 in
  let h4 := 0 in
  let h5 := -(k2 2%nat * k2 2%nat) * cos (t2 2%nat) in
  match dim with 2%nat => [h0; h1; hyy] | _ => [h0; h1; h2; hyy; h4; h5] end.

(** tpms_lib.cpp 36-46: extend_to_3D, used by the interface macro (50-73). *)
Definition extend_to_3D (dim : nat) (z : R) (p : list R) : list R := match dim with 2%nat => [vx p 0; vx p 1; z] | _ => p end.
(** An implicit function: value, gradient, Hessian (upper triangle by rows). *)
Record func := mk_func { fval : list R -> R; fgrad : list R -> list R; fhess : list R -> list R }.
(** tpms_lib.cpp 50-73: the public interface. *)
Definition tpms (dim : nat) (z : R) (ev : list R -> R) (gr : list R -> list R) (he : list R -> list R) : func :=
  mk_func (fun p => ev (extend_to_3D dim z p)) (fun p => gr (extend_to_3D dim z p)) (fun p => he (extend_to_3D dim z p)).
Inductive tpms_kind := KSchoen | KSchoenIWP | KSchoenFRD | KFischerKochS | KSchwarzDiamond | KSchwarzPrimitive.
Definition tpms_func (k : tpms_kind) (dim : nat) (m : list R) (z : R) : func :=
  match k with
  | KSchoen => tpms dim z (schoen_eval m) (schoen_grad dim m) (schoen_hess dim m)
  | KSchoenIWP => tpms dim z (schoeniwp_eval m) (schoeniwp_grad dim m) (schoeniwp_hess dim m)
  | KSchoenFRD => tpms dim z (schoenfrd_eval m) (schoenfrd_grad dim m) (schoenfrd_hess dim m)
  | KFischerKochS => tpms dim z (fischerkochs_eval m) (fischerkochs_grad dim m) (fischerkochs_hess dim m)
  | KSchwarzDiamond => tpms dim z (schwarzdiamond_eval m) (schwarzdiamond_grad dim m) (schwarzdiamond_hess dim m)
  | KSchwarzPrimitive => tpms dim z (schwarzprimitive_eval m) (schwarzprimitive_grad dim m) (schwarzprimitive_hess dim m)
  end.
