(** Specification of the assembly on a cut entity, from the quadrature rules of the entity to the element tensor. *)
From Coq Require Import List ZArith Reals.
From Verif Require Import M_PyBase M_PyFacets M_PyQuadUtils M_PyPack M_PyKernel S_PyQuadUtils S_PyPack S_PyKernel.
Import ListNotations.
Local Open Scope nat_scope.

Section Spec.
  Variables (rc : qdata -> nat -> rule) (rf : qdata -> bool -> facet -> rule) (ctyp : celltype) (all_perms : list (list nat)) (mixed : bool).
  Variable phi : list Z -> list nat -> list R -> nat -> nat -> R.
  Definition no_rule : rule := {| r_pts := []; r_w := []; r_nrm := [] |}.
  (** The rule of an entity. *)
  Definition rule_at (qd : qdata) (e : entity) : rule :=
    match e with ECell c => rc qd c | EFacet f => rf qd true f | EFacet2 f _ => rf qd false f end.
  (** Where a function of the cell, or of the facet in mixed-dimensional integrals, is evaluated for the point [x] of the rule. *)
  Definition seen_at (e : entity) (gdim : nat) (x : vec) : vec :=
    match e with
    | ECell _ => x
    | EFacet f => if gdim =? tdim ctyp then place ctyp all_perms mixed f x else x
    | EFacet2 f _ => if gdim =? tdim ctyp then place ctyp all_perms true f x else x
    end.
  Definition value_at (rho : nat -> nat) (e : entity) (x : vec) (a : access) : R :=
    match nth_error (components (t_elem (a_tab a))) (t_comp (a_tab a)) with
    | Some (k, j) => phi k (t_derivs (a_tab a)) (seen_at e (t_gdim (a_tab a)) x) (ieval rho (a_dof a)) j
    | None => 0%R
    end.
  (** Sum over the points of the rule. *)
  Definition entity_loop (rho : nat -> nat) (qds : list qdata) (e : entity) (k : loop) : R :=
    match nth_error qds (k_quad k) with
    | Some qd =>
        let r := rule_at qd e in
        fold_right Rplus 0%R
          (map (fun iq => k_body k (nth iq (r_w r) 0%R) (if qd_unf qd then nth iq (r_nrm r) [] else []) (map (value_at rho e (nth iq (r_pts r) [])) (k_acc k)))
             (seq 0 (length (r_w r))))
    | None => 0%R
    end.
  Definition entity_sum (rho : nat -> nat) (qds : list qdata) (e : entity) (ks : list loop) : R := fold_right Rplus 0%R (map (entity_loop rho qds e) ks).
End Spec.
