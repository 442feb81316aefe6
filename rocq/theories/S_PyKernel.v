(** Specification of the generated kernel: what the tables must be, and what the element tensor must receive. *)
From Coq Require Import List ZArith Reals.
From Verif Require Import M_PyBase M_PyPack M_PyKernel.
Import ListNotations.
Local Open Scope nat_scope.

(** The scalar functions of an element, component by component: basix element and its value component. *)
Fixpoint components (e : element) : list (list Z * nat) :=
  match e with
  | EBasix k v => map (fun j => (k, j)) (seq 0 v)
  | EBlocked k _ v => map (fun _ => (k, 0)) (seq 0 v)
  | EMixed subs => flat_map components subs
  end.

Section Spec.
  Variables (valid : list Z -> bool) (etdim edofs evs : list Z -> nat) (phi : list Z -> list nat -> list R -> nat -> nat -> R).
  Variables (interior mixed : bool) (tdim : nat).

  (** Elements as basix builds them: a basix element has the value size of its tabulation, blocked elements are made of scalar elements. *)
  Fixpoint element_ok (e : element) : Prop :=
    match e with
    | EBasix k v => evs k = v /\ 1 <= v
    | EBlocked k bs v => evs k = 1 /\ 1 <= bs /\ 1 <= v /\ (bs = 1 -> v = 1)
    | EMixed subs => (fix all (l : list element) : Prop := match l with [] => True | x :: l' => element_ok x /\ all l' end) subs
    end.
  (** A table of an integral: a component of its element, all the dofs of the basix element, derivatives in every direction,
      the dimension of the cells, or that of the facets in mixed-dimensional integrals. *)
  Definition table_ok (t : table) : Prop :=
    element_ok (t_elem t)
    /\ (exists k j, nth_error (components (t_elem t)) (t_comp t) = Some (k, j) /\ valid k = true /\ edofs k = t_funcs t /\ etdim k = t_gdim t)
    /\ 1 <= t_gdim t <= 3 /\ length (t_derivs t) = t_gdim t
    /\ (t_gdim t = tdim \/ mixed = true /\ S (t_gdim t) = tdim).
  (** The data of a quadrature on an entity: as many points as weights. *)
  Definition data_ok (l : loaded) : Prop :=
    length (l_pts l) = length (l_w l) * tdim
    /\ (interior = true -> length (l_pts1 l) = length (l_w l) * tdim)
    /\ (mixed = true -> length (l_fpts l) = length (l_w l) * (tdim - 1)).
  (** The [iq]-th point of an array. *)
  Definition point (g : nat) (flat : list R) (iq : nat) : list R := firstn g (skipn (iq * g) flat).
  (** The side of an interior facet meant by an access: that of its permutation or of its facet. *)
  Definition second_side (a : access) : bool :=
    interior && match a_perm a, a_entity a with PPerm k, _ => k =? 1 | _, ELocal k => k =? 1 | _, _ => false end.
  (** Where a table must be evaluated at point [iq] of a quadrature. *)
  Definition where_at (l : loaded) (a : access) (iq : nat) : list R :=
    if t_gdim (a_tab a) =? tdim then point tdim (if second_side a then l_pts1 l else l_pts l) iq
    else point (t_gdim (a_tab a)) (l_fpts l) iq.
  (** The value of an access at point [iq]: the function of the table there. *)
  Definition true_value (rho : nat -> nat) (l : loaded) (iq : nat) (a : access) : R :=
    let t := a_tab a in
    match nth_error (components (t_elem t)) (t_comp t) with
    | Some (k, j) => phi k (t_derivs t) (where_at l a iq) (ieval rho (a_dof a)) j
    | None => 0%R
    end.
  (** The static tables of FFCx: a table whose values do not change from point to point ("fixed", "piecewise", "zeros", "ones", for a rule
      with more than one point) is the table of a function with that value at every point of the entity. *)
  Definition static_ok (perms ents : nat -> nat) (rho : nat -> nat) (l : loaded) (a : access) : Prop :=
    is_const (a_tab a) = true -> forall iq, iq < length (l_w l) ->
      t_static (a_tab a) (match a_perm a with PNum n => n | PPerm k => perms k end) (match a_entity a with ENum n => n | ELocal k => ents k end)
        (ieval (with_iq rho iq) (a_iq a)) (ieval rho (a_dof a)) = true_value rho l iq a.
  (** The contribution of the loops: the sum over the points of the quadrature of each. *)
  Definition loop_sum (rho : nat -> nat) (ls : list loaded) (k : loop) : R :=
    let l := nth (k_quad k) ls {| l_pts := []; l_pts1 := []; l_fpts := []; l_w := []; l_nrm := [] |} in
    fold_right Rplus 0%R
      (map (fun iq => k_body k (nth iq (l_w l) 0%R) (point tdim (l_nrm l) iq) (map (true_value rho l iq) (k_acc k)))
         (seq 0 (length (l_w l)))).
  Definition kernel_sum (rho : nat -> nat) (ls : list loaded) (ks : list loop) : R :=
    fold_right Rplus 0%R (map (loop_sum rho ls) ks).

  (** The states of the shim of a thread after any history of calls of its functions and of writes of the kernels to the scratch vector. *)
  Variable grow : nat -> nat -> nat.
  Inductive reachable : shim -> Prop :=
  | R_init : reachable shim0
  | R_register : forall s k, reachable s -> reachable (fst (register valid s k))
  | R_scratch : forall s n, reachable s -> reachable (get_scratch grow s n)
  | R_reset : forall s, reachable s -> reachable (shim_reset s)
  | R_tabulate : forall s h nd flat n g gen off cap s' e, reachable s -> tabulate_impl etdim edofs evs phi s h nd flat n g gen off cap = Ret (s', e) -> reachable s'
  | R_write : forall s gen off vals s', reachable s -> store s gen off vals = Ret s' -> reachable s'.

  (** The accesses of FFCx: the table belongs to the quadrature; the dof index is that of a loop over the dofs; the point index is iq,
      or the literal 0 when the static rule has a single point (FFCx takes such tables as piecewise constant); permuted tables
      (interior facets) are accessed through quadrature_permutation. *)
  Fixpoint no_iq (i : cidx) : Prop := match i with INum _ => True | IVar v => v <> 0 | IAdd a b => no_iq a /\ no_iq b end.
  Definition ffcx_access (rho : nat -> nat) (a : access) : Prop :=
    let t := a_tab a in
    a_iq a = (if (t_qpts t =? 1) || t_flat t then INum 0 else IVar 0)
    /\ no_iq (a_dof a) /\ ieval rho (a_dof a) < t_funcs t
    /\ (if interior && (1 <? t_perms t) then a_perm a = PPerm 0 \/ a_perm a = PPerm 1 else a_perm a = PNum 0).
End Spec.
