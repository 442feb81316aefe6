(** Degrees of the quadratures of a form (C148) and assembly on a cut entity from its rules to the element tensor (C149). *)
From Coq Require Import List ZArith Reals Lia Lra.
From Verif Require Import M_PyBase M_PyFacets M_PyQuadUtils M_PyPack M_PyKernel S_PyQuadUtils S_PyPack S_PyKernel S_PyKernel2 L_PyQuadUtils L_PyKernel L_PyKernel2 L_PyKernel3 L_PyKernel4 P_PyKernel P_PyPack.
Import ListNotations.
Local Open Scope nat_scope.

(** ** C148: the custom quadrature of an integral is generated with the degree of the integral. *)
Lemma get_set : forall d x n, dict_get (dict_set d x) n = if u_name x =? n then Some x else dict_get d n.
Proof.
  induction d as [|[m y] d IH]; intros x n; cbn [dict_set dict_get]; [reflexivity|].
  destruct (Nat.eqb_spec m (u_name x)) as [->|NE]; cbn [dict_get].
  - destruct (u_name x =? n); reflexivity.
  - rewrite IH. destruct (Nat.eqb_spec m n) as [->|NE']; [|reflexivity]. destruct (Nat.eqb_spec (u_name x) n); [congruence|reflexivity].
Qed.
Lemma extract_get : forall itgs d x, In x itgs -> (forall y, In y itgs -> u_name y = u_name x -> y = x) -> dict_get (fold_left dict_set itgs d) (u_name x) = Some x.
Proof.
  intros itgs d x I U.
  assert (K : forall l e, (forall y, In y l -> u_name y = u_name x -> y = x) -> dict_get e (u_name x) = Some x \/ In x l -> dict_get (fold_left dict_set l e) (u_name x) = Some x).
  { induction l as [|y l IH]; intros e H [G|G]; [exact G|destruct G| |].
    - cbn [fold_left]. apply IH; [intros z Hz; apply H; right; exact Hz|]. left. rewrite get_set. destruct (Nat.eqb_spec (u_name y) (u_name x)) as [E|E]; [rewrite (H y (or_introl eq_refl) E); reflexivity|exact G].
    - cbn [fold_left]. apply IH; [intros z Hz; apply H; right; exact Hz|]. destruct G as [->|G]; [left; rewrite get_set, Nat.eqb_refl; reflexivity|right; exact G]. }
  apply K; auto.
Qed.
Theorem C148_degree_of_integral_partial : forall itgs x, In x itgs -> (forall y, In y itgs -> u_name y = u_name x -> u_degree y = u_degree x /\ u_unf y = u_unf x) ->
  dict_get (extract_quads itgs) (u_name x) = Some x.
Proof.
  intros itgs x I U. apply extract_get; [exact I|]. intros y Hy N. destruct (U y Hy N) as [D F]. destruct x, y; cbn in *; congruence.
Qed.
(** Two unfitted-boundary integrals of degrees 6 and 1 in the same form, as ds_bdry_unf(degree=6) and ds_bdry_unf(degree=1): both are computed with degree 1. *)
Theorem C148_degree_of_integral_refuted : forall bdry_name : nat,
  let itgs := [bdry_rule bdry_name 6; bdry_rule bdry_name 1] in
  exists x y, In x itgs /\ dict_get (extract_quads itgs) (u_name x) = Some y /\ u_degree x = 6 /\ u_degree y = 1.
Proof.
  intros b itgs. exists (bdry_rule b 6), (bdry_rule b 1). split; [left; reflexivity|].
  unfold itgs, extract_quads, bdry_rule. cbn. rewrite Nat.eqb_refl. cbn. rewrite Nat.eqb_refl. auto.
Qed.
Example C148_case : let itgs := [{| u_name := 3; u_degree := 4; u_unf := false |}; bdry_rule 5 2; {| u_name := 3; u_degree := 4; u_unf := false |}] in
  forall y, In y itgs -> u_name y = 5 -> u_degree y = 2 /\ u_unf y = true.
Proof. cbn. intros y [<-|[<-|[<-|[]]]] H; cbn in *; try discriminate; auto. Qed.

(** ** C149: from the rules to the element tensor. *)
Lemma concat_point : forall d (pts : list (list R)) iq, Forall (fun x => length x = d) pts -> iq < length pts -> point d (concat pts) iq = nth iq pts [].
Proof.
  intros d pts. unfold point. induction pts as [|x pts IH]; intros iq F L; [cbn in L; lia|]. inversion F as [|? ? LX F']; subst. cbn [concat]. destruct iq as [|iq].
  - cbn [Nat.mul skipn nth]. rewrite firstn_app, Nat.sub_diag, firstn_all, firstn_O, app_nil_r. reflexivity.
  - cbn [nth]. rewrite <- (IH iq F') by (cbn [length] in L; lia). f_equal. cbn [Nat.mul]. rewrite skipn_app, skipn_all2 by lia. cbn [app]. f_equal. lia.
Qed.
Lemma concat_len : forall d (pts : list (list R)), Forall (fun x => length x = d) pts -> length (concat pts) = length pts * d.
Proof. intros d pts F. induction F as [|x pts LX F IH]; [reflexivity|]. cbn [concat length]. rewrite app_length, IH, LX. lia. Qed.
Lemma point_nil : forall d iq, point d [] iq = []. Proof. intros. unfold point. rewrite skipn_nil, firstn_nil. reflexivity. Qed.

Section EndToEnd.
  Variables (cut_cells empty_cells : list nat) (cut_facets empty_facets : bool -> list facet) (rc : qdata -> nat -> rule) (rf : qdata -> bool -> facet -> rule).
  Variables (ctyp : celltype) (all_perms : list (list nat)) (mixed : bool) (create_cells : qdata -> list nat -> cquad) (create_facets : qdata -> list facet -> bool -> cquad).
  Variables (qds : list qdata) (dom : idomain) (gdim fdim : nat).
  Hypothesis ST : setting cut_cells empty_cells cut_facets empty_facets rc rf ctyp all_perms mixed create_cells create_facets qds dom gdim fdim.
  Hypothesis NI : is_interior dom = false.
  Variables (i : nat) (e : entity).
  Hypothesis EI : entity_at dom i = Some e.
  Hypothesis CUT : cut_entity cut_cells cut_facets e.
  Notation exp := (fun qd => expected rc rf ctyp all_perms mixed qd e).
  Notation td := (tdim ctyp).

  Lemma place_len' : forall needs f x, valid_facet ctyp all_perms mixed dom f -> length x = td - 1 -> length (place ctyp all_perms needs f x) = td.
  Proof. intros needs f x [V _] L. unfold place. apply embed_length; [exact V|]. destruct needs; [|exact L]. destruct (facet_cell ctyp); [rewrite moved_length|]; exact L. Qed.
  Lemma exp_ok : forall qd, In qd qds -> data_ok false mixed td (exp qd)
    /\ l_w (exp qd) = r_w (rule_at rc rf qd e)
    /\ (forall iq, iq < length (r_w (rule_at rc rf qd e)) -> point td (l_nrm (exp qd)) iq = if qd_unf qd then nth iq (r_nrm (rule_at rc rf qd e)) [] else [])
    /\ (forall iq g, iq < length (r_w (rule_at rc rf qd e)) -> g = td \/ mixed = true /\ S g = td ->
         (if g =? td then point td (l_pts (exp qd)) iq else point g (l_fpts (exp qd)) iq) = seen_at ctyp all_perms mixed e g (nth iq (r_pts (rule_at rc rf qd e)) [])).
  Proof.
    intros qd Hq. destruct ST as [_ [_ [_ [_ [G [F SS]]]]]]. destruct dom as [l|l|l]; [| |discriminate NI]; cbn [entity_at] in EI; destruct (nth_error l i) as [x|] eqn:EX; try discriminate; cbn in EI; injection EI as <-.
    - destruct SS as [M [RO _]]. destruct (RO qd x Hq (nth_error_In _ _ EX)) as [L [FP FN]]. rewrite <- G.
      cbn [expected rule_at l_w l_pts l_nrm l_fpts seen_at]. split; [|split; [reflexivity|split]].
      + unfold data_ok. cbn [l_pts l_w l_pts1 l_fpts]. split; [rewrite (concat_len gdim) by exact FP; rewrite L; reflexivity|]. split; intros H; congruence.
      + intros iq Hi. destruct (qd_unf qd); [|apply point_nil]. destruct (FN eq_refl) as [LN FN']. apply concat_point; [exact FN'|lia].
      + intros iq g Hi [D|[D _]]; [|congruence]. rewrite D. rewrite Nat.eqb_refl. apply concat_point; [exact FP|lia].
    - destruct SS as [T2 [U [RO [_ V]]]]. cbn [single_facets is_interior negb] in RO. destruct (RO qd x Hq (nth_error_In _ _ EX)) as [L [FP _]].
      assert (VX : valid_facet ctyp all_perms mixed (Ext l) x). { apply (V i (EFacet x) x); [cbn; rewrite EX; reflexivity|exact CUT|left; reflexivity]. }
      cbn [expected rule_at l_w l_pts l_nrm l_fpts seen_at].
      assert (FM : Forall (fun y => length y = td) (map (place ctyp all_perms mixed x) (r_pts (rf qd true x)))).
      { apply Forall_forall. intros y Hy. apply in_map_iff in Hy. destruct Hy as [z [<- Hz]]. rewrite Forall_forall in FP. pose proof (FP z Hz) as LZ.
        unfold place. destruct VX as [VX _]. apply embed_length; [exact VX|]. destruct mixed; [|lia]. destruct (facet_cell ctyp); [rewrite moved_length|]; lia. }
      split; [|split; [reflexivity|split]].
      + unfold data_ok. cbn [l_pts l_w l_pts1 l_fpts]. split; [rewrite (concat_len td) by exact FM; rewrite map_length, L; reflexivity|]. split; [discriminate|].
        intros ->. rewrite (concat_len fdim) by exact FP. rewrite L, F. reflexivity.
      + intros iq Hi. rewrite (U qd Hq). apply point_nil.
      + intros iq g Hi D. destruct (Nat.eqb_spec g td) as [E|E].
        * rewrite concat_point; [|exact FM|rewrite map_length; lia]. rewrite (nth_indep _ [] (place ctyp all_perms mixed x [])) by (rewrite map_length; lia). apply map_nth.
        * destruct D as [D|[-> D]]; [contradiction|]. apply concat_point; [|lia]. replace g with fdim by lia. exact FP.
  Qed.

  Variables (valid : list Z -> bool) (etdim edofs evs : list Z -> nat) (phi : list Z -> list nat -> list R -> nat -> nat -> R) (grow : nat -> nat -> nat).
  Lemma value_ok : forall rho qd iq a, In qd qds -> iq < length (r_w (rule_at rc rf qd e)) -> (t_gdim (a_tab a) = td \/ mixed = true /\ S (t_gdim (a_tab a)) = td) ->
    true_value phi false td rho (exp qd) iq a = value_at ctyp all_perms mixed phi rho e (nth iq (r_pts (rule_at rc rf qd e)) []) a.
  Proof.
    intros rho qd iq a Hq Hi D. destruct (exp_ok qd Hq) as [_ [_ [_ P]]]. unfold true_value, value_at. rewrite <- (P iq _ Hi D). reflexivity.
  Qed.
  Lemma sums_equal : forall rho ks,
    (forall k, In k ks -> exists qd, nth_error qds (k_quad k) = Some qd /\ forall a, In a (k_acc k) -> t_gdim (a_tab a) = td \/ mixed = true /\ S (t_gdim (a_tab a)) = td) ->
    kernel_sum phi false td rho (map exp qds) ks = entity_sum rc rf ctyp all_perms mixed phi rho qds e ks.
  Proof.
    intros rho ks H. unfold kernel_sum, entity_sum. f_equal. apply map_ext_in. intros k Hk. destruct (H k Hk) as [qd [EQ HA]]. unfold loop_sum, entity_loop. rewrite EQ.
    assert (IQ : In qd qds) by (eapply nth_error_In; exact EQ).
    rewrite (nth_error_nth (map exp qds) (k_quad k) _ (map_nth_error exp _ _ EQ)).
    destruct (exp_ok qd IQ) as [_ [W [N _]]]. rewrite W. f_equal. apply map_ext_in. intros iq Hi. apply in_seq in Hi. cbn beta. rewrite N by lia. f_equal.
    apply map_ext_in. intros a Ha. apply value_ok; [exact IQ|lia|apply HA; exact Ha].
  Qed.
End EndToEnd.

(** The packed coefficients, the wrapper and the custom kernel together: on every cut cell or exterior facet, the element tensor receives the sum of
    the integrand over the points of the quadrature rule of the entity, with its weights, normals and the basis functions at these points, whatever the
    history of the shim. One quadrature has tables that vary; static rules have at least two points. *)
Theorem C149_cut_entity_assembly : forall argsort cut_cells empty_cells cut_facets empty_facets rc rf create_cells create_facets ctyp all_perms junk ct mixed qds dom gdim fdim cs old
    valid etdim edofs evs phi grow qs ks rho,
  stable_argsort argsort ->
  setting cut_cells empty_cells cut_facets empty_facets rc rf ctyp all_perms mixed create_cells create_facets qds dom gdim fdim ->
  is_interior dom = false -> shape_ok ct (shape0 dom) cs old ->
  length qs = length qds ->
  Forall (fun ts => Forall (table_ok valid etdim edofs evs mixed (tdim ctyp)) ts /\ NoDup (map t_id ts)) qs ->
  (forall i j ts us t u, nth_error qs i = Some ts -> nth_error qs j = Some us -> In t ts -> In u us -> is_const t = false -> is_const u = false -> i = j) ->
  (forall k, In k ks -> exists ts, nth_error qs (k_quad k) = Some ts /\ forall a, In a (k_acc k) -> In (a_tab a) ts /\ ffcx_access false rho a /\ 2 <= t_qpts (a_tab a)) ->
  exists mem,
    pack argsort cut_cells empty_cells cut_facets empty_facets create_cells create_facets ctyp all_perms junk ct mixed qds dom gdim fdim cs old = Ret mem
    /\ forall i e perms ents, entity_at dom i = Some e -> cut_entity cut_cells cut_facets e ->
       (* static values of the constant tables *)
       (forall k qd a iq, In k ks -> nth_error qds (k_quad k) = Some qd -> In a (k_acc k) -> is_const (a_tab a) = true -> iq < length (r_w (rule_at rc rf qd e)) ->
          t_static (a_tab a) (match a_perm a with PNum n => n | PPerm k => perms k end) (match a_entity a with ENum n => n | ELocal k => ents k end)
            (ieval (with_iq rho iq) (a_iq a)) (ieval rho (a_dof a)) = value_at ctyp all_perms mixed phi rho e (nth iq (r_pts (rule_at rc rf qd e)) []) a) ->
       exists ls, wrapper ct mixed qds dom gdim fdim mem (i * ncols ct cs) cs = Ret (RunCustom ls)
         /\ forall s A, reachable valid etdim edofs evs phi grow s ->
              custom_kernel valid etdim edofs evs phi grow false mixed (tdim ctyp) qs ks perms ents rho ls s A
              = Ret (A + entity_sum rc rf ctyp all_perms mixed phi rho qds e ks)%R.
Proof.
  intros argsort cut_cells empty_cells cut_facets empty_facets rc rf create_cells create_facets ctyp all_perms junk ct mixed qds dom gdim fdim cs old
    valid etdim edofs evs phi grow qs ks rho AS ST NI SO LQ FT ONE HK.
  destruct (C135_packed_entities argsort cut_cells empty_cells cut_facets empty_facets rc rf create_cells create_facets ctyp all_perms junk ct mixed qds dom gdim fdim cs old AS ST NI SO) as [mem [E [RUN _]]].
  exists mem. split; [exact E|]. intros i e perms ents EI CUT STAT. destruct (RUN i e EI) as [k0 [WR [RC _]]]. rewrite (RC CUT) in WR.
  exists (map (fun qd => expected rc rf ctyp all_perms mixed qd e) qds). split; [exact WR|]. intros s A RE.
  assert (TD : forall ts t, In ts qs -> In t ts -> t_gdim t = tdim ctyp \/ mixed = true /\ S (t_gdim t) = tdim ctyp).
  { intros ts t Hts Ht. rewrite Forall_forall in FT. destruct (FT ts Hts) as [F _]. rewrite Forall_forall in F. destruct (F t Ht) as [_ [_ [_ [_ D]]]]. exact D. }
  assert (KQ : forall k, In k ks -> exists ts qd, nth_error qs (k_quad k) = Some ts /\ nth_error qds (k_quad k) = Some qd /\ forall a, In a (k_acc k) -> In (a_tab a) ts).
  { intros k Hk. destruct (HK k Hk) as [ts [ET HA]]. destruct (nth_error qds (k_quad k)) as [qd|] eqn:EQ.
    - exists ts, qd. repeat split; auto. intros a Ha. apply HA. exact Ha.
    - apply nth_error_None in EQ. assert (k_quad k < length qs) by (apply nth_error_Some; congruence). lia. }
  rewrite (C142_kernel_sum valid etdim edofs evs phi grow false mixed (tdim ctyp) qs ks perms ents rho); auto.
  - f_equal. f_equal. apply (sums_equal cut_cells empty_cells cut_facets empty_facets rc rf ctyp all_perms mixed create_cells create_facets qds dom gdim fdim ST NI i e EI CUT phi).
    intros k Hk. destruct (KQ k Hk) as [ts [qd [ET [EQ HA]]]]. exists qd. split; [exact EQ|]. intros a Ha. apply (TD ts); [eapply nth_error_In; exact ET|apply HA; exact Ha].
  - discriminate.
  - rewrite map_length. symmetry. exact LQ.
  - apply Forall_forall. intros l Hl. apply in_map_iff in Hl. destruct Hl as [qd [<- Hq]].
    apply (exp_ok cut_cells empty_cells cut_facets empty_facets rc rf ctyp all_perms mixed create_cells create_facets qds dom gdim fdim ST NI i e EI CUT qd Hq).
  - intros k Hk. destruct (KQ k Hk) as [ts [qd [ET [EQ _]]]]. destruct (HK k Hk) as [ts' [ET' HA]]. rewrite ET in ET'. injection ET' as <-.
    exists ts, (expected rc rf ctyp all_perms mixed qd e). split; [exact ET|]. split; [exact (map_nth_error (fun qd => expected rc rf ctyp all_perms mixed qd e) _ _ EQ)|]. intros a Ha. destruct (HA a Ha) as [IT [FA QP]].
    split; [exact IT|]. split; [exact FA|]. split; [exact QP|]. split; [intros _; reflexivity|].
    assert (IQ : In qd qds) by (eapply nth_error_In; exact EQ).
    destruct (exp_ok cut_cells empty_cells cut_facets empty_facets rc rf ctyp all_perms mixed create_cells create_facets qds dom gdim fdim ST NI i e EI CUT qd IQ) as [_ [W _]].
    intros C iq Hi. rewrite W in Hi.
    rewrite (value_ok cut_cells empty_cells cut_facets empty_facets rc rf ctyp all_perms mixed create_cells create_facets qds dom gdim fdim ST NI i e EI CUT phi rho qd iq a IQ Hi).
    + apply (STAT k qd a iq); auto.
    + apply (TD ts); [eapply nth_error_In; exact ET|exact IT].
Qed.
(** The setting of C135_case with one table of the bilinear element in the integral over the unfitted boundary: on the cut cell 2 (the second entity)
    the element tensor receives the weights 1/2 and 3 times the function at (1/4, 1/2) and (3/4, 1/2), times the first component of the normal. *)
Definition nrm_loop (t : table) : loop :=
  {| k_quad := 1; k_acc := [{| a_tab := t; a_perm := PNum 0; a_entity := ENum 0; a_iq := IVar 0; a_dof := IVar 1 |}]; k_body := fun w n vs => (w * nth 0 n 0 * nth 0 vs 0)%R |}.
Example C149_case : exists mem ls,
  pack L_PyPack7.nsort [2; 4] [7] (fun _ => []) (fun _ => []) ex_create ex_createf CQuadrilateral [] (fun _ => []) C128 false ex_qds (Cells [5; 2; 7]) 2 1 1 [[1; 2]; [3; 4]; [5; 6]]%R = Ret mem
  /\ wrapper C128 false ex_qds (Cells [5; 2; 7]) 2 1 mem (1 * ncols C128 1) 1 = Ret (RunCustom ls)
  /\ custom_kernel q1_valid q1_dim q1_dofs q1_vs q1_phi (fun _ n => n) false false 2 [[]; [q1_table 1 2 1 [0; 0]]] [nrm_loop (q1_table 1 2 1 [0; 0])] (fun _ => 0) (fun _ => 0) rho3 ls shim0 5
     = Ret (5 + (1/2 * 1 * (1/4 * (1/2)) + INR 3 * 0 * (3/4 * (1/2))))%R.
Proof.
  destruct (C149_cut_entity_assembly L_PyPack7.nsort [2; 4] [7] (fun _ => []) (fun _ => []) ex_rule ex_rf ex_create ex_createf CQuadrilateral [] (fun _ => []) C128 false ex_qds (Cells [5; 2; 7]) 2 1 1 [[1; 2]; [3; 4]; [5; 6]]%R
    q1_valid q1_dim q1_dofs q1_vs q1_phi (fun _ n => n) [[]; [q1_table 1 2 1 [0; 0]]] [nrm_loop (q1_table 1 2 1 [0; 0])] rho3) as [mem [E H]].
  - exact (proj1 C135_case).
  - exact (proj1 (proj2 C135_case)).
  - reflexivity.
  - exact (proj2 (proj2 C135_case)).
  - reflexivity.
  - constructor; [split; constructor|]. constructor; [|constructor]. split; [constructor; [apply q1_table_ok; reflexivity|constructor]|constructor; [intros []|constructor]].
  - intros i j ts us t u U V IT IU _ _. destruct i as [|[|[|i]]], j as [|[|[|j]]]; cbn in U, V; try discriminate; try reflexivity; injection U as <-; injection V as <-; solve [destruct IT | destruct IU].
  - intros k [<-|[]]. eexists. split; [reflexivity|]. intros a [<-|[]]. split; [left; reflexivity|]. split; [hnf; cbn; split; [reflexivity|]; split; [discriminate|]; split; [vm_compute; lia|reflexivity]|]. cbn. lia.
  - destruct (H 1 (ECell 2) (fun _ => 0) (fun _ => 0) eq_refl) as [ls [W K]]; [cbn; auto| |].
    { intros k qd a iq [<-|[]] _ [<-|[]] C. discriminate C. }
    exists mem, ls. split; [exact E|]. split; [exact W|]. cbn [tdim] in K. rewrite (K shim0 5%R (R_init _ _ _ _ _ _)). f_equal.
    cbv -[Rplus Rmult Rminus Ropp IZR Rdiv INR]. ring.
Qed.
Print Assumptions C142_kernel_sum.
Print Assumptions C143_several_quadratures_partial.
Print Assumptions C143_several_quadratures_refuted.
Print Assumptions C144_second_side_partial.
Print Assumptions C144_second_side_refuted.
Print Assumptions C145_one_point_rule_partial.
Print Assumptions C145_one_point_rule_refuted.
Print Assumptions C146_registry.
Print Assumptions C146_errors.
Print Assumptions C147_component_of_element.
Print Assumptions C148_degree_of_integral_partial.
Print Assumptions C148_degree_of_integral_refuted.
Print Assumptions C149_cut_entity_assembly.
