(** The generated kernel of a cut entity and the shim it calls (C142-C148). *)
From Coq Require Import List ZArith Reals Lia Lra.
From Verif Require Import M_PyBase M_PyPack M_PyKernel S_PyKernel L_PyKernel L_PyKernel2 L_PyKernel3 L_PyKernel4.
Import ListNotations.
Local Open Scope nat_scope.

(** ** C142: the element tensor receives the sum over the points of the quadrature of the integrand, evaluated with the basis functions at those
    points: for an integral whose tables that vary from point to point belong to one quadrature, and every state of the shim. *)
Theorem C142_kernel_sum : forall valid etdim edofs evs phi grow interior mixed tdim qs ks perms ents rho ls s A,
  (interior = true -> mixed = false) ->
  reachable valid etdim edofs evs phi grow s ->
  length ls = length qs -> Forall (data_ok interior mixed tdim) ls ->
  Forall (fun ts => Forall (table_ok valid etdim edofs evs mixed tdim) ts /\ NoDup (map t_id ts)) qs ->
  (forall k, In k ks -> exists ts l, nth_error qs (k_quad k) = Some ts /\ nth_error ls (k_quad k) = Some l
     /\ forall a, In a (k_acc k) -> In (a_tab a) ts /\ ffcx_access interior rho a /\ 2 <= t_qpts (a_tab a)
          /\ (two_sided interior (a_tab a) = false -> second_side interior a = false) /\ static_ok phi interior tdim perms ents rho l a) ->
  (* one quadrature *)
  (forall i j ts us t u, nth_error qs i = Some ts -> nth_error qs j = Some us -> In t ts -> In u us -> is_const t = false -> is_const u = false -> i = j) ->
  custom_kernel valid etdim edofs evs phi grow interior mixed tdim qs ks perms ents rho ls s A = Ret (A + kernel_sum phi interior tdim rho ls ks)%R.
Proof.
  intros valid etdim edofs evs phi grow interior mixed tdim qs ks perms ents rho ls s A NB RE LL DL FT HK ONE.
  apply kernel_ok; auto; [eapply reachable_ok; exact RE|].
  intros k Hk. destruct (HK k Hk) as [ts [l [ET [EL HA]]]]. exists ts, l. split; [exact ET|]. split; [exact EL|].
  intros a Ha. destruct (HA a Ha) as [IT [FA [QP [TS SO]]]]. split; [exact IT|]. split; [exact FA|]. split; [exact QP|]. split; [exact TS|]. split; [exact SO|].
  intros C j us J U [u [IU CU]]. pose proof (ONE _ _ _ _ _ _ ET U IT IU C CU). lia.
Qed.

(** ** C143: several quadratures. *)
(** Partial: the loops that use tables that vary belong to the last quadrature that has such tables. *)
Theorem C143_several_quadratures_partial : forall valid etdim edofs evs phi grow interior mixed tdim qs ks perms ents rho ls s A,
  (interior = true -> mixed = false) ->
  reachable valid etdim edofs evs phi grow s ->
  length ls = length qs -> Forall (data_ok interior mixed tdim) ls ->
  Forall (fun ts => Forall (table_ok valid etdim edofs evs mixed tdim) ts /\ NoDup (map t_id ts)) qs ->
  (forall k, In k ks -> exists ts l, nth_error qs (k_quad k) = Some ts /\ nth_error ls (k_quad k) = Some l
     /\ forall a, In a (k_acc k) -> In (a_tab a) ts /\ ffcx_access interior rho a /\ 2 <= t_qpts (a_tab a)
          /\ (two_sided interior (a_tab a) = false -> second_side interior a = false) /\ static_ok phi interior tdim perms ents rho l a
          /\ (is_const (a_tab a) = false -> forall j us u, k_quad k < j -> nth_error qs j = Some us -> In u us -> is_const u = true)) ->
  custom_kernel valid etdim edofs evs phi grow interior mixed tdim qs ks perms ents rho ls s A = Ret (A + kernel_sum phi interior tdim rho ls ks)%R.
Proof.
  intros valid etdim edofs evs phi grow interior mixed tdim qs ks perms ents rho ls s A NB RE LL DL FT HK.
  apply kernel_ok; auto; [eapply reachable_ok; exact RE|].
  intros k Hk. destruct (HK k Hk) as [ts [l [ET [EL HA]]]]. exists ts, l. split; [exact ET|]. split; [exact EL|].
  intros a Ha. destruct (HA a Ha) as [IT [FA [QP [TS [SO LV]]]]]. split; [exact IT|]. split; [exact FA|]. split; [exact QP|]. split; [exact TS|]. split; [exact SO|].
  intros C j us J U [u [IU CU]]. pose proof (LV C j us u J U IU). congruence.
Qed.

(** The bilinear element of the quadrilateral, one basix element. *)
Definition q1_valid (k : list Z) : bool := true.
Definition q1_dim (k : list Z) : nat := 2.
Definition q1_dofs (k : list Z) : nat := 4.
Definition q1_vs (k : list Z) : nat := 1.
Definition q1_phi (k : list Z) (d : list nat) (x : list R) (i c : nat) : R :=
  let X := nth 0 x 0%R in let Y := nth 1 x 0%R in
  match d with
  | [0; 0] => ((if Nat.odd i then X else 1 - X) * (if 2 <=? i then Y else 1 - Y))%R
  | [1; 0] => ((if Nat.odd i then 1 else -1) * (if 2 <=? i then Y else 1 - Y))%R
  | [0; 1] => ((if Nat.odd i then X else 1 - X) * (if 2 <=? i then 1 else -1))%R
  | _ => 0%R
  end.
(** A table of values of that element; with a rule of one point FFCx classifies it as "piecewise". *)
Definition q1_table (id qpts perms : nat) (d : list nat) : table :=
  {| t_id := id; t_elem := EBasix [1%Z] 1; t_comp := 0; t_derivs := d; t_gdim := 2; t_funcs := 4; t_perms := perms; t_qpts := qpts; t_flat := qpts =? 1;
     t_static := fun _ _ _ _ => 0%R |}.
Lemma q1_table_ok : forall id qpts perms d, length d = 2 -> table_ok q1_valid q1_dim q1_dofs q1_vs false 2 (q1_table id qpts perms d).
Proof.
  intros id qpts perms d L. unfold table_ok. cbn. split; [split; [reflexivity|lia]|]. split; [exists [1%Z], 0; repeat split|]. split; [lia|]. split; [exact L|]. left; reflexivity.
Qed.
(** A rule of one point. *)
Definition one_point (x y w : R) : loaded := {| l_pts := [x; y]; l_pts1 := []; l_fpts := []; l_w := [w]; l_nrm := [] |}.
(** The loop of f * v * dx, for the last test function: its quadrature and its table. *)
Definition mass_loop (q : nat) (t : table) (e : eidx) (iq : cidx) : loop :=
  {| k_quad := q; k_acc := [{| a_tab := t; a_perm := PNum 0; a_entity := e; a_iq := iq; a_dof := IVar 1 |}]; k_body := fun w _ vs => (w * nth 0 vs 0)%R |}.
Definition rho3 (v : nat) : nat := if v =? 1 then 3 else 0.
(** The sum of an integral over the cell and one over the unfitted boundary, with rules of one point on a cut cell: the first loop reads the
    basis functions at the points of the second rule. *)
Lemma two_rules : forall x1 y1 w1 x2 y2 w2 A,
  let t0 := q1_table 0 4 1 [0; 0] in let t1 := q1_table 1 2 1 [0; 0] in
  custom_kernel q1_valid q1_dim q1_dofs q1_vs q1_phi (fun _ n => n) false false 2 [[t0]; [t1]] [mass_loop 0 t0 (ENum 0) (IVar 0); mass_loop 1 t1 (ENum 0) (IVar 0)]
    (fun _ => 0) (fun _ => 0) rho3 [one_point x1 y1 w1; one_point x2 y2 w2] shim0 A
  = Ret (A + w1 * (x2 * y2) + w2 * (x2 * y2))%R
  /\ kernel_sum q1_phi false 2 rho3 [one_point x1 y1 w1; one_point x2 y2 w2] [mass_loop 0 t0 (ENum 0) (IVar 0); mass_loop 1 t1 (ENum 0) (IVar 0)]
     = (w1 * (x1 * y1) + w2 * (x2 * y2))%R.
Proof.
  intros x1 y1 w1 x2 y2 w2 A t0 t1. split.
  - cbv -[Rplus Rmult Rminus Ropp IZR]. reflexivity.
  - cbv -[Rplus Rmult Rminus Ropp IZR]. ring.
Qed.
Theorem C143_several_quadratures_refuted :
  exists valid etdim edofs evs phi grow tdim qs ks perms ents rho ls s A,
  reachable valid etdim edofs evs phi grow s
  /\ length ls = length qs /\ Forall (data_ok false false tdim) ls
  /\ Forall (fun ts => Forall (table_ok valid etdim edofs evs false tdim) ts /\ NoDup (map t_id ts)) qs
  /\ (forall k, In k ks -> exists ts l, nth_error qs (k_quad k) = Some ts /\ nth_error ls (k_quad k) = Some l
       /\ forall a, In a (k_acc k) -> In (a_tab a) ts /\ ffcx_access false rho a /\ 2 <= t_qpts (a_tab a)
            /\ (two_sided false (a_tab a) = false -> second_side false a = false) /\ static_ok phi false tdim perms ents rho l a)
  /\ custom_kernel valid etdim edofs evs phi grow false false tdim qs ks perms ents rho ls s A <> Ret (A + kernel_sum phi false tdim rho ls ks)%R.
Proof.
  set (t0 := q1_table 0 4 1 [0; 0]). set (t1 := q1_table 1 2 1 [0; 0]).
  exists q1_valid, q1_dim, q1_dofs, q1_vs, q1_phi, (fun _ n => n), 2, [[t0]; [t1]], [mass_loop 0 t0 (ENum 0) (IVar 0); mass_loop 1 t1 (ENum 0) (IVar 0)],
    (fun _ => 0), (fun _ => 0), rho3, [one_point (1/4) (1/2) 1; one_point (3/4) (1/2) 1], shim0, 0%R.
  split; [constructor|]. split; [reflexivity|]. split; [|split; [|split]].
  - repeat constructor; cbn; discriminate.
  - constructor; [|constructor; [|constructor]]; split; [constructor; [apply q1_table_ok; reflexivity|constructor]|constructor; [intros []|constructor]|constructor; [apply q1_table_ok; reflexivity|constructor]|constructor; [intros []|constructor]].
  - intros k [<-|[<-|[]]].
    + exists [t0], (one_point (1/4) (1/2) 1). split; [reflexivity|]. split; [reflexivity|]. intros a [<-|[]]. split; [left; reflexivity|]. split; [hnf; cbn -[Nat.lt]; split; [reflexivity|]; split; [discriminate|]; split; [vm_compute; lia|reflexivity]|]. split; [cbn; lia|]. split; [reflexivity|]. intros H; discriminate H.
    + exists [t1], (one_point (3/4) (1/2) 1). split; [reflexivity|]. split; [reflexivity|]. intros a [<-|[]]. split; [left; reflexivity|]. split; [hnf; cbn -[Nat.lt]; split; [reflexivity|]; split; [discriminate|]; split; [vm_compute; lia|reflexivity]|]. split; [cbn; lia|]. split; [reflexivity|]. intros H; discriminate H.
  - destruct (two_rules (1/4) (1/2) 1 (3/4) (1/2) 1 0) as [E K]. fold t0 t1 in E, K. rewrite E, K. intros H. assert (Q : forall a b : R, Ret a = Ret b -> a = b) by (intros a b X; congruence). apply Q in H. lra.
Qed.

(** ** C144, C145: static rules of one point. *)
(** FFCx takes the tables of a rule of one point as constant on each facet: no permutations, and the literal 0 for the point. *)
Lemma one_static_point : forall x1 y1 w1 x2 y2 w2 A,
  let t0 := q1_table 0 1 1 [0; 0] in
  let l := {| l_pts := [x1; y1; x2; y2]; l_pts1 := []; l_fpts := []; l_w := [w1; w2]; l_nrm := [] |} in
  custom_kernel q1_valid q1_dim q1_dofs q1_vs q1_phi (fun _ n => n) false false 2 [[t0]] [mass_loop 0 t0 (ENum 0) (INum 0)]
    (fun _ => 0) (fun _ => 0) rho3 [l] shim0 A
  = Ret (A + w1 * (x1 * y1) + w2 * (x1 * y1))%R
  /\ kernel_sum q1_phi false 2 rho3 [l] [mass_loop 0 t0 (ENum 0) (INum 0)] = (w1 * (x1 * y1) + w2 * (x2 * y2))%R.
Proof.
  intros x1 y1 w1 x2 y2 w2 A t0 l. split.
  - cbv -[Rplus Rmult Rminus Ropp IZR]. reflexivity.
  - cbv -[Rplus Rmult Rminus Ropp IZR]. ring.
Qed.
Theorem C145_one_point_rule_refuted :
  exists valid etdim edofs evs phi grow tdim qs ks perms ents rho ls s A,
  reachable valid etdim edofs evs phi grow s
  /\ length ls = length qs /\ Forall (data_ok false false tdim) ls
  /\ Forall (fun ts => Forall (table_ok valid etdim edofs evs false tdim) ts /\ NoDup (map t_id ts)) qs
  /\ length qs = 1
  /\ (forall k, In k ks -> exists ts l, nth_error qs (k_quad k) = Some ts /\ nth_error ls (k_quad k) = Some l
       /\ forall a, In a (k_acc k) -> In (a_tab a) ts /\ ffcx_access false rho a /\ static_ok phi false tdim perms ents rho l a)
  /\ custom_kernel valid etdim edofs evs phi grow false false tdim qs ks perms ents rho ls s A <> Ret (A + kernel_sum phi false tdim rho ls ks)%R.
Proof.
  set (t0 := q1_table 0 1 1 [0; 0]).
  set (l := {| l_pts := [1/4; 1/2; 3/4; 1/2]%R; l_pts1 := []; l_fpts := []; l_w := [1; 1]%R; l_nrm := [] |}).
  exists q1_valid, q1_dim, q1_dofs, q1_vs, q1_phi, (fun _ n => n), 2, [[t0]], [mass_loop 0 t0 (ENum 0) (INum 0)], (fun _ => 0), (fun _ => 0), rho3, [l], shim0, 0%R.
  split; [constructor|]. split; [reflexivity|]. split; [|split; [|split; [reflexivity|split]]].
  - repeat constructor; cbn; discriminate.
  - constructor; [|constructor]; split; [constructor; [apply q1_table_ok; reflexivity|constructor]|constructor; [intros []|constructor]].
  - intros k [<-|[]]. exists [t0], l. split; [reflexivity|]. split; [reflexivity|]. intros a [<-|[]]. split; [left; reflexivity|]. split; [hnf; cbn -[Nat.lt]; split; [reflexivity|]; split; [discriminate|]; split; [vm_compute; lia|reflexivity]|]. intros H; discriminate H.
  - destruct (one_static_point (1/4) (1/2) 1 (3/4) (1/2) 1 0) as [E K]. fold t0 in E, K. fold l in E, K. rewrite E, K. intros H. assert (Q : forall a b : R, Ret a = Ret b -> a = b) by (intros a b X; congruence). apply Q in H. lra.
Qed.
(** Partial: with a static rule of two points or more, and one quadrature, the values at every point are those of that point: C142. *)
Theorem C145_one_point_rule_partial : forall valid etdim edofs evs phi grow interior mixed tdim ts ks perms ents rho l s A,
  (interior = true -> mixed = false) -> reachable valid etdim edofs evs phi grow s -> data_ok interior mixed tdim l ->
  Forall (table_ok valid etdim edofs evs mixed tdim) ts -> NoDup (map t_id ts) ->
  (forall k, In k ks -> k_quad k = 0 /\ forall a, In a (k_acc k) -> In (a_tab a) ts /\ ffcx_access interior rho a
     /\ (two_sided interior (a_tab a) = false -> second_side interior a = false) /\ static_ok phi interior tdim perms ents rho l a
     /\ (t_qpts (a_tab a) = 1 -> False)) -> (forall t, In t ts -> 1 <= t_qpts t) ->
  custom_kernel valid etdim edofs evs phi grow interior mixed tdim [ts] ks perms ents rho [l] s A = Ret (A + kernel_sum phi interior tdim rho [l] ks)%R.
Proof.
  intros valid etdim edofs evs phi grow interior mixed tdim ts ks perms ents rho l s A NB RE DO FT ND HK Q1.
  apply C142_kernel_sum; auto.
  - intros k Hk. destruct (HK k Hk) as [K0 HA]. exists ts, l. rewrite K0. split; [reflexivity|]. split; [reflexivity|]. intros a Ha. destruct (HA a Ha) as [IT [FA [TS [SO QQ]]]].
    split; [exact IT|]. split; [exact FA|]. split; [|split; [exact TS|exact SO]]. pose proof (Q1 _ IT). destruct (Nat.eq_dec (t_qpts (a_tab a)) 1) as [E|E]; [destruct (QQ E)|lia].
  - intros i j us vs t u U V _ _ _ _. destruct i as [|[|i]], j as [|[|j]]; cbn in U, V; try discriminate. reflexivity.
Qed.

(** Interior facets with a static rule of one point: the second side reads the points of the first. *)
Lemma second_side_read : forall x1 y1 x2 y2 w A,
  let t0 := q1_table 0 1 1 [0; 0] in
  let l := {| l_pts := [x1; y1]; l_pts1 := [x2; y2]; l_fpts := []; l_w := [w]; l_nrm := [] |} in
  custom_kernel q1_valid q1_dim q1_dofs q1_vs q1_phi (fun _ n => n) true false 2 [[t0]] [mass_loop 0 t0 (ELocal 1) (INum 0)]
    (fun _ => 0) (fun k => if k =? 0 then 2 else 1) rho3 [l] shim0 A
  = Ret (A + w * (x1 * y1))%R
  /\ kernel_sum q1_phi true 2 rho3 [l] [mass_loop 0 t0 (ELocal 1) (INum 0)] = (w * (x2 * y2))%R.
Proof.
  intros x1 y1 x2 y2 w A t0 l. split.
  - cbv -[Rplus Rmult Rminus Ropp IZR]. reflexivity.
  - cbv -[Rplus Rmult Rminus Ropp IZR]. ring.
Qed.
Theorem C144_second_side_refuted :
  exists valid etdim edofs evs phi grow tdim qs ks perms ents rho ls s A,
  reachable valid etdim edofs evs phi grow s
  /\ length ls = length qs /\ Forall (data_ok true false tdim) ls
  /\ Forall (fun ts => Forall (table_ok valid etdim edofs evs false tdim) ts /\ NoDup (map t_id ts)) qs
  /\ length qs = 1 /\ Forall (fun l => length (l_w l) = 1) ls
  /\ (forall k, In k ks -> exists ts l, nth_error qs (k_quad k) = Some ts /\ nth_error ls (k_quad k) = Some l
       /\ forall a, In a (k_acc k) -> In (a_tab a) ts /\ ffcx_access true rho a /\ static_ok phi true tdim perms ents rho l a)
  /\ custom_kernel valid etdim edofs evs phi grow true false tdim qs ks perms ents rho ls s A <> Ret (A + kernel_sum phi true tdim rho ls ks)%R.
Proof.
  set (t0 := q1_table 0 1 1 [0; 0]).
  (* a vertical facet: the right side of the first cell, the left side of the second *)
  set (l := {| l_pts := [1; 1/2]%R; l_pts1 := [0; 1/2]%R; l_fpts := []; l_w := [1]%R; l_nrm := [] |}).
  exists q1_valid, q1_dim, q1_dofs, q1_vs, q1_phi, (fun _ n => n), 2, [[t0]], [mass_loop 0 t0 (ELocal 1) (INum 0)], (fun _ => 0), (fun k => if k =? 0 then 2 else 1), rho3, [l], shim0, 0%R.
  split; [constructor|]. split; [reflexivity|]. split; [|split; [|split; [reflexivity|split; [repeat constructor|split]]]].
  - repeat constructor; cbn; discriminate.
  - constructor; [|constructor]; split; [constructor; [apply q1_table_ok; reflexivity|constructor]|constructor; [intros []|constructor]].
  - intros k [<-|[]]. exists [t0], l. split; [reflexivity|]. split; [reflexivity|]. intros a [<-|[]]. split; [left; reflexivity|]. split; [hnf; cbn -[Nat.lt]; split; [reflexivity|]; split; [discriminate|]; split; [vm_compute; lia|reflexivity]|]. intros H; discriminate H.
  - destruct (second_side_read 1 (1/2) 0 (1/2) 1 0) as [E K]. fold t0 in E, K. fold l in E, K. rewrite E, K. intros H. assert (Q : forall a b : R, Ret a = Ret b -> a = b) by (intros a b X; congruence). apply Q in H. lra.
Qed.
(** Partial: tables with permutations (rules of two points or more) are read on both sides at the points of the side. *)
Theorem C144_second_side_partial : forall valid etdim edofs evs phi grow tdim ts ks perms ents rho l s A,
  reachable valid etdim edofs evs phi grow s -> data_ok true false tdim l ->
  Forall (table_ok valid etdim edofs evs false tdim) ts -> NoDup (map t_id ts) ->
  (forall k, In k ks -> k_quad k = 0 /\ forall a, In a (k_acc k) -> In (a_tab a) ts /\ ffcx_access true rho a /\ 2 <= t_qpts (a_tab a) /\ 2 <= t_perms (a_tab a)
     /\ static_ok phi true tdim perms ents rho l a) ->
  custom_kernel valid etdim edofs evs phi grow true false tdim [ts] ks perms ents rho [l] s A = Ret (A + kernel_sum phi true tdim rho [l] ks)%R.
Proof.
  intros valid etdim edofs evs phi grow tdim ts ks perms ents rho l s A RE DO FT ND HK.
  apply C142_kernel_sum; auto.
  - intros k Hk. destruct (HK k Hk) as [K0 HA]. exists ts, l. rewrite K0. split; [reflexivity|]. split; [reflexivity|]. intros a Ha. destruct (HA a Ha) as [IT [FA [QP [PP SO]]]].
    split; [exact IT|]. split; [exact FA|]. split; [exact QP|]. split; [|exact SO]. unfold two_sided. cbn [andb]. destruct (Nat.ltb_spec 1 (t_perms (a_tab a))); [discriminate|lia].
  - intros i j us vs t u U V _ _ _ _. destruct i as [|[|i]], j as [|[|j]]; cbn in U, V; try discriminate. reflexivity.
Qed.

(** Concrete case of C142 and C144: a facet between two cells, a vector-valued element (the first table is repacked) and a derivative of
    the bilinear element, rules of two points; and a state of the shim with a history. *)
Definition e2_vs (k : list Z) : nat := match k with [2%Z] => 2 | _ => 1 end.
Definition e2_table : table :=
  {| t_id := 7; t_elem := EMixed [EBasix [1%Z] 1; EBasix [2%Z] 2]; t_comp := 2; t_derivs := [0; 0]; t_gdim := 2; t_funcs := 4; t_perms := 2; t_qpts := 2; t_flat := false;
     t_static := fun _ _ _ _ => 0%R |}.
Example C142_case : forall phi A (x0 y0 x1 y1 u0 v0 u1 v1 w0 w1 : R),
  let l := {| l_pts := [x0; y0; x1; y1]; l_pts1 := [u0; v0; u1; v1]; l_fpts := []; l_w := [w0; w1]; l_nrm := [] |} in
  let acc t k := {| a_tab := t; a_perm := PPerm k; a_entity := ELocal k; a_iq := IVar 0; a_dof := IVar 1 |} in
  let t1 := q1_table 3 2 2 [1; 0] in
  custom_kernel q1_valid q1_dim q1_dofs e2_vs phi (fun _ n => n) true false 2 [[e2_table; t1]]
    [{| k_quad := 0; k_acc := [acc e2_table 1; acc t1 0]; k_body := fun w _ vs => (w * nth 0 vs 0 * nth 1 vs 0)%R |}]
    (fun _ => 0) (fun _ => 0) rho3 [l] (fst (register q1_valid shim0 [1%Z])) A
  = Ret (A + ((w0 * phi [2]%Z [0; 0]%nat [u0; v0] 3%nat 1%nat * phi [1]%Z [1; 0]%nat [x0; y0] 3%nat 0%nat) + (w1 * phi [2]%Z [0; 0]%nat [u1; v1] 3%nat 1%nat * phi [1]%Z [1; 0]%nat [x1; y1] 3%nat 0%nat)))%R.
Proof.
  intros phi A x0 y0 x1 y1 u0 v0 u1 v1 w0 w1 l acc t1. rewrite C144_second_side_partial.
  - f_equal. cbv -[Rplus Rmult Rminus Ropp IZR]. ring.
  - apply R_register. apply R_init.
  - repeat split; cbn; lia || discriminate.
  - constructor; [|constructor; [|constructor]].
    + unfold table_ok. cbn. split; [split; [split; [reflexivity|lia]|split; [split; [reflexivity|lia]|exact I]]|]. split; [exists [2%Z], 1; repeat split|]. split; [lia|]. split; [reflexivity|]. left; reflexivity.
    + unfold table_ok. cbn. split; [split; [reflexivity|lia]|]. split; [exists [1%Z], 0; repeat split|]. split; [lia|]. split; [reflexivity|]. left; reflexivity.
  - cbn. constructor; [cbn; lia|]. constructor; [intros []|constructor].
  - intros k [<-|[]]. split; [reflexivity|]. intros a [<-|[<-|[]]]; (split; [cbn; auto|]); (split; [hnf; cbn; split; [reflexivity|]; split; [discriminate|]; split; [vm_compute; lia|auto]|]); (split; [cbn; lia|]); (split; [cbn; lia|]); intros H; discriminate H.
Qed.

(** ** C146: the registry of the shim. *)
(** [s'] comes after [s], with no reset in between. *)
Inductive later valid etdim edofs evs phi grow : shim -> shim -> Prop :=
| L_refl : forall s, later valid etdim edofs evs phi grow s s
| L_register : forall s s' k, later valid etdim edofs evs phi grow s s' -> later valid etdim edofs evs phi grow s (fst (register valid s' k))
| L_scratch : forall s s' n, later valid etdim edofs evs phi grow s s' -> later valid etdim edofs evs phi grow s (get_scratch grow s' n)
| L_tabulate : forall s s' h nd flat n g gen off cap s'' e, later valid etdim edofs evs phi grow s s' ->
    tabulate_impl etdim edofs evs phi s' h nd flat n g gen off cap = Ret (s'', e) -> later valid etdim edofs evs phi grow s s''
| L_write : forall s s' gen off vals s'', later valid etdim edofs evs phi grow s s' -> store s' gen off vals = Ret s'' -> later valid etdim edofs evs phi grow s s''.
Lemma later_reach : forall valid etdim edofs evs phi grow s s', later valid etdim edofs evs phi grow s s' -> reachable valid etdim edofs evs phi grow s -> reachable valid etdim edofs evs phi grow s'.
Proof.
  intros valid etdim edofs evs phi grow s s' H RE. induction H as [s|s s' k H IH|s s' n H IH|s s' h nd flat n g gen off cap s'' e H IH E|s s' gen off vals s'' H IH E].
  - exact RE.
  - apply R_register, IH, RE.
  - apply R_scratch, IH, RE.
  - exact (R_tabulate _ _ _ _ _ _ _ _ _ _ _ _ _ _ _ _ _ (IH RE) E).
  - exact (R_write _ _ _ _ _ _ _ _ _ _ _ (IH RE) E).
Qed.
Lemma later_prefix : forall valid etdim edofs evs phi grow s s', later valid etdim edofs evs phi grow s s' -> exists x, s_reg s' = s_reg s ++ x.
Proof.
  intros valid etdim edofs evs phi grow s s' H. induction H as [s|s s' k H [x IH]|s s' n H [x IH]|s s' h nd flat n g gen off cap s'' e H [x IH] E|s s' gen off vals s'' H [x IH] E].
  - exists []. rewrite app_nil_r. reflexivity.
  - unfold register. destruct (lookup k (s_idx s')); [exists x; exact IH|]. destruct (valid k); [|exists x; exact IH]. cbn [fst s_reg]. exists (x ++ [k]). rewrite IH, app_assoc. reflexivity.
  - exists x. destruct (scratch_ok grow s' n) as [_ [A _]]. rewrite A. exact IH.
  - exists x. destruct (tabulate_reg _ _ _ _ _ _ _ _ _ _ _ _ _ _ _ E) as [A _]. rewrite A. exact IH.
  - exists x. destruct (store_reg _ _ _ _ _ E) as [A _]. rewrite A. exact IH.
Qed.
(** Registering a valid element gives a handle; until a reset, registering it again gives the same handle and changes nothing, other elements get other
    handles, and tabulating with the handle gives the tabulation of the element: [n] points of its dimension, enough room, live memory. *)
Theorem C146_registry : forall valid etdim edofs evs phi grow s k s',
  reachable valid etdim edofs evs phi grow s -> valid k = true -> later valid etdim edofs evs phi grow (fst (register valid s k)) s' ->
  let h := snd (register valid s k) in
  (0 <= h)%Z
  /\ register valid s' k = (s', h)
  /\ (forall k', k' <> k -> snd (register valid s' k') <> h)
  /\ (forall nd flat n gen off cap, n * etdim k <= length flat -> length (multi (etdim k) nd) * n * edofs k * evs k <= cap ->
        tabulate_impl etdim edofs evs phi s' h nd flat n (etdim k) gen off cap
        = s'' <- store s' gen off (tabulate etdim edofs evs phi k nd (rows (etdim k) n flat)) ;; Ret (s'', 0%Z)).
Proof.
  intros valid etdim edofs evs phi grow s k s' RE V LT h.
  pose proof (reachable_ok _ _ _ _ _ _ _ RE) as RO. destruct (register_ok valid s k RO V) as [i [RH [RN [RO1 _]]]].
  assert (RE' : reachable valid etdim edofs evs phi grow s') by (eapply later_reach; [exact LT|apply R_register; exact RE]).
  pose proof (reachable_ok _ _ _ _ _ _ _ RE') as RO'. destruct (later_prefix _ _ _ _ _ _ _ _ LT) as [x PX].
  assert (RN' : nth_error (s_reg s') i = Some k). { rewrite PX, nth_error_app1; [exact RN|]. apply nth_error_Some. congruence. }
  unfold h. rewrite RH. split; [lia|]. destruct RO' as [A [B C]]. split; [|split].
  - unfold register. rewrite (proj2 (A k i) RN'). reflexivity.
  - intros k' NE E. destruct (valid k') eqn:V'.
    + destruct (register_ok valid s' k' (conj A (conj B C)) V') as [j [RJ [NJ _]]]. rewrite RJ in E. apply Nat2Z.inj in E. subst j.
      assert (P : exists y, s_reg (fst (register valid s' k')) = s_reg s' ++ y).
      { apply (later_prefix valid etdim edofs evs phi grow). apply L_register. apply L_refl. }
      destruct P as [y P]. rewrite P, nth_error_app1 in NJ by (apply nth_error_Some; congruence). congruence.
    + unfold register in E. rewrite V' in E. destruct (lookup k' (s_idx s')) as [j|] eqn:L.
      * cbn in E. apply Nat2Z.inj in E. subst j. apply A in L. congruence.
      * cbn in E. lia.
  - intros nd flat n gen off cap LF CP. unfold tabulate_impl.
    assert (IL : i < length (s_reg s')) by (apply nth_error_Some; congruence).
    destruct (Z.ltb_spec (Z.of_nat i) 0) as [Z0|_]; [lia|]. destruct (Z.leb_spec (Z.of_nat (length (s_reg s'))) (Z.of_nat i)) as [Z1|_]; [lia|]. cbn [orb].
    rewrite Nat2Z.id, RN'. destruct (Nat.ltb_spec cap (length (multi (etdim k) nd) * n * edofs k * evs k)) as [X|_]; [lia|].
    rewrite Nat.eqb_refl. cbn [negb]. destruct (Nat.ltb_spec (length flat) (n * etdim k)) as [X|_]; [lia|]. reflexivity.
Qed.
(** An element that basix rejects gives -1 and changes nothing; a handle that was never given out gives an error and changes nothing. *)
Theorem C146_errors : forall valid etdim edofs evs phi grow s,
  reachable valid etdim edofs evs phi grow s ->
  (forall k, valid k = false -> register valid s k = (s, (-1)%Z))
  /\ (forall h nd flat n g gen off cap, (forall k, valid k = true -> h <> snd (register valid s k) \/ fst (register valid s k) <> s) ->
        tabulate_impl etdim edofs evs phi s h nd flat n g gen off cap = Ret (s, (-3)%Z)).
Proof.
  intros valid etdim edofs evs phi grow s RE. pose proof (reachable_ok _ _ _ _ _ _ _ RE) as [A [B C]]. split.
  - intros k V. unfold register. destruct (lookup k (s_idx s)) as [h|] eqn:L.
    + apply A in L. apply nth_error_In in L. rewrite Forall_forall in C. rewrite (C k L) in V. discriminate.
    + rewrite V. reflexivity.
  - intros h nd flat n g gen off cap H. unfold tabulate_impl. destruct (Z.ltb_spec h 0) as [Z0|Z0]; [reflexivity|].
    destruct (Z.leb_spec (Z.of_nat (length (s_reg s))) h) as [Z1|Z1]; [reflexivity|]. exfalso.
    destruct (nth_error (s_reg s) (Z.to_nat h)) as [k|] eqn:E; [|apply nth_error_None in E; lia].
    pose proof (proj2 (A k _) E) as L. assert (V : valid k = true) by (rewrite Forall_forall in C; apply C; eapply nth_error_In; exact E).
    destruct (H k V) as [X|X]; apply X; unfold register; rewrite L; cbn [fst snd]; [rewrite Z2Nat.id by lia; reflexivity|reflexivity].
Qed.
Example C146_case :
  let valid := fun k : list Z => match k with [] => false | _ => true end in
  let s := fst (register valid shim0 [1%Z]) in
  reachable valid q1_dim q1_dofs q1_vs q1_phi (fun _ n => n) s
  /\ snd (register valid s [2%Z]) = 1%Z
  /\ later valid q1_dim q1_dofs q1_vs q1_phi (fun _ n => n) (fst (register valid s [2%Z])) (get_scratch (fun _ n => n) (fst (register valid (fst (register valid s [2%Z])) [3%Z])) 10)
  /\ snd (register valid s []) = (-1)%Z.
Proof.
  split; [apply R_register, R_init|]. split; [reflexivity|]. split; [apply L_scratch, L_register, L_refl|reflexivity].
Qed.

(** ** C147: the table of a component of any element, mixed or not: the basix element and the value component that the kernel tabulates are those of the
    component, and the derivative is read at its place in the tabulation, for every order tabulated. *)
Theorem C147_component_of_element : forall evs e c k j, element_ok evs e -> nth_error (components e) c = Some (k, j) ->
  forall t, t_elem t = e -> t_comp t = c -> 1 <= t_gdim t <= 3 -> length (t_derivs t) = t_gdim t ->
  exists i, table_info t = Ret i /\ i_key i = k /\ i_vs i = evs k /\ i_vaxis i = j /\ i_ndofs i = t_funcs t
    /\ i_maxnd i = list_sum (t_derivs t)
    /\ forall nd, i_maxnd i <= nd -> nth_error (multi (t_gdim t) nd) (i_didx i) = Some (t_derivs t) /\ length (multi (t_gdim t) nd) = comb (nd + t_gdim t) (t_gdim t).
Proof.
  intros evs e c k j EO E t TE TC GD DL. destruct (resolve_ok evs _ _ _ _ EO E) as [e' [c' [RS [LF [EO' E']]]]].
  unfold table_info. rewrite TE, TC, RS. cbn [bind].
  assert (DD : firstn (t_gdim t) (t_derivs t ++ repeat 0 (t_gdim t)) = t_derivs t).
  { rewrite <- DL at 1. rewrite firstn_app, Nat.sub_diag, firstn_all, firstn_O, app_nil_r. reflexivity. }
  rewrite DD.
  assert (MI : forall nd, list_sum (t_derivs t) <= nd -> nth_error (multi (t_gdim t) nd) (basix_index (t_derivs t)) = Some (t_derivs t) /\ length (multi (t_gdim t) nd) = comb (nd + t_gdim t) (t_gdim t)).
  { intros nd L. split; [apply multi_index; auto|apply multi_length; exact GD]. }
  destruct e' as [k0 v|k0 bs v|subs]; [| |destruct LF].
  - cbn [components] in E'. pose proof (map_seq_lt _ _ _ _ _ E') as CL. rewrite (nth_map_seq _ (fun j0 => (k0, j0))) in E' by exact CL. injection E' as -> ->.
    eexists. split; [reflexivity|]. cbn. destruct EO' as [EV _]. split; [reflexivity|]. split; [auto|]. split; [reflexivity|]. split; [reflexivity|]. split; [reflexivity|exact MI].
  - cbn [components] in E'. destruct EO' as [EV [B1 [V1 VB]]]. pose proof (map_seq_lt _ _ _ _ _ E') as CL.
    rewrite (nth_map_seq _ (fun _ => (k0, 0))) in E' by exact CL. injection E' as -> <-.
    destruct (Nat.ltb_spec 1 bs) as [L|L].
    + eexists. split; [reflexivity|]. cbn. split; [reflexivity|]. split; [auto|]. split; [reflexivity|]. split; [reflexivity|]. split; [reflexivity|exact MI].
    + assert (bs = 1) by lia. specialize (VB H). subst v. eexists. split; [reflexivity|]. cbn. split; [reflexivity|]. split; [auto|]. split; [lia|]. split; [reflexivity|]. split; [reflexivity|exact MI].
Qed.
(** A Taylor-Hood element: a vector element of two components, then a scalar one. *)
Example C147_case : let e := EMixed [EBlocked [2%Z] 2 2; EBasix [1%Z] 1] in
  element_ok (fun _ => 1) e /\ components e = [([2%Z], 0); ([2%Z], 0); ([1%Z], 0)]
  /\ nth_error (multi 3 2) (basix_index [0; 1; 1]) = Some [0; 1; 1].
Proof. cbn. repeat split; lia. Qed.
