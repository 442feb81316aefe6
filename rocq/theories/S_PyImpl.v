(** Specification of the implicit functions of the Python package: what a function object describes, and the functions a program can make. *)
From Coq Require Import Reals List.
From Verif Require Import M_Bzr S_Poly S_Affine S_Funcs M_PyImpl.
Import ListNotations.
Local Open Scope R_scope.

(** The call succeeds, and the function of dimension [dim] that it gives is negative exactly inside [P]. *)
Definition describes (o : outcome pyfunc) (dim : nat) (P : list R -> Prop) : Prop :=
  exists f, o = Ret f /\ pf_dim f = dim /\ forall p, length p = dim -> (ieval (pf_impl f) p < 0 <-> P p).
(** The call succeeds, and the function of dimension [dim] that it gives has the values [v]. *)
Definition has_values (o : outcome pyfunc) (dim : nat) (v : list R -> R) : Prop :=
  exists f, o = Ret f /\ pf_dim f = dim /\ forall p, length p = dim -> ieval (pf_impl f) p = v p.
Definition default {A} (d : A) (o : option A) : A := match o with Some x => x | None => d end.
Definition opt_len (n : nat) (o : option (list R)) : Prop := match o with Some l => length l = n | None => True end.
(** A reference system of dimension [dim]; a transformation that the library inverts. *)
Definition good_ref (dim : nat) (y : ref_system) : Prop :=
  length (r_origin y) = dim /\ length (r_basis y) = dim /\ Forall (fun e => length e = dim) (r_basis y) /\ orthonormal (r_basis y).
Definition good_aff (dim : nat) (t : list R) : Prop := length t = (dim * (dim + 1))%nat /\ default_tol < Rabs (aff_det dim t).

(** The functions that a Python program can make. *)
Inductive made : pyfunc -> Prop :=
  | m_disk r c b f : create_disk r c b = Ret f -> made f
  | m_sphere r c b f : create_sphere r c b = Ret f -> made f
  | m_ellipse s y b f : create_ellipse s y b = Ret f -> made f
  | m_ellipsoid s y b f : create_ellipsoid s y b = Ret f -> made f
  | m_cylinder r o a b f : create_cylinder r o a b = Ret f -> made f
  | m_annulus ri ro c b f : create_annulus ri ro c b = Ret f -> made f
  | m_torus R0 r0 c a b f : create_torus R0 r0 c a b = Ret f -> made f
  | m_constant v d b f : create_constant v d b = Ret f -> made f
  | m_plane o n b f : create_plane o n b = Ret f -> made f
  | m_line o n b f : create_line o n b = Ret f -> made f
  | m_dim_linear c t f : create_dim_linear c t = Ret f -> made f
  | m_box t d f : create_box t d = Ret f -> made f
  | m_tpms k m z f : create_tpms k m z = Ret f -> made f
  | m_negative g f : made g -> create_negative g = Ret f -> made f
  | m_addition g h f : made g -> made h -> create_functions_addition g h = Ret f -> made f
  | m_subtraction g h f : made g -> made h -> create_functions_subtraction g h = Ret f -> made f
  | m_transformed g t f : made g -> create_affinely_transformed g t = Ret f -> made f.
