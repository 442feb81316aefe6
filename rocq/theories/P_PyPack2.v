(** Interior facets, position of the offset, maps of facet points. *)
From Coq Require Import List ZArith Reals Lra Lia Arith Sorting.Sorted Permutation.
From Verif Require Import M_PyBase M_PyFacets M_PyQuadUtils M_PyPack S_PyQuadUtils S_PyPack L_PyNodes L_PyFacets L_PyQuadUtils L_PyPack L_PyPack2 L_PyPack3 L_PyPack4 L_PyPack5 L_PyPack6 L_PyPack7 P_PyPack.
Import ListNotations.
Local Open Scope nat_scope.

(** C137: the same as C135 over interior facets: the generated function gets, for the facet [i], the pointer to row [2 * i]. False: the position of an empty
    facet is used as the row of its offset. In an integral over three interior facets of which the last is empty, nothing runs on the
    (full) second facet, and the original kernel runs on the empty one. *)
Theorem C137_interior_facets_refuted : exists create_cells create_facets rc rf dom mem,
  setting [] [] (fun _ => []) (fun _ => [(3, 2)]) rc rf CQuadrilateral [] false create_cells create_facets [{| qd_id := 0; qd_unf := false |}] dom 2 1
  /\ stable_argsort nsort /\ is_interior dom = true /\ shape_ok F64 (n_rows dom) 0 (repeat [] (n_rows dom))
  /\ pack nsort [] [] (fun _ => []) (fun _ => [(3, 2)]) create_cells create_facets CQuadrilateral [] (fun _ => []) F64 false [{| qd_id := 0; qd_unf := false |}] dom 2 1 0 (repeat [] (n_rows dom)) = Ret mem
  /\ entity_at dom 1 = Some (EFacet2 (1, 3) (2, 0)) /\ ~ empty_entity [] (fun _ => [(3, 2)]) (EFacet2 (1, 3) (2, 0)) /\ ~ cut_entity [] (fun _ => []) (EFacet2 (1, 3) (2, 0))
  /\ wrapper F64 false [{| qd_id := 0; qd_unf := false |}] dom 2 1 mem (2 * 1 * ncols F64 0) 0 = Ret RunNothing
  /\ entity_at dom 2 = Some (EFacet2 (3, 2) (4, 1)) /\ empty_entity [] (fun _ => [(3, 2)]) (EFacet2 (3, 2) (4, 1))
  /\ wrapper F64 false [{| qd_id := 0; qd_unf := false |}] dom 2 1 mem (2 * 2 * ncols F64 0) 0 = Ret RunOriginal.
Proof.
  exists ex_create, ex_createf, ex_rule, ex_rf, (Int [((0, 3), (1, 0)); ((1, 3), (2, 0)); ((3, 2), (4, 1))]), [Off (-1); Off (-1); Off 0; Off (-1); Off (-1); Off (-1)].
  split; [|split; [exact nsort_ok|split; [reflexivity|split; [split; [reflexivity|intros r R; apply repeat_spec in R; subst r; reflexivity]|]]]].
  - unfold setting. split; [constructor|]. split; [constructor|]. split; [exact I|].
    split. { intros [|[|[|i]]] e H; cbn in H; try (destruct i; discriminate); injection H as <-; cbn; tauto. }
    split; [reflexivity|]. split; [reflexivity|]. split; [cbn; lia|]. split; [intros qd [<-|[]]; reflexivity|]. split; [|split].
    + intros qd f _ _. unfold rule_ok. cbn. split; [reflexivity|]. split; [repeat constructor|]. discriminate.
    + intros qd fs. unfold gathers, ex_createf. cbn [q_npts q_points q_weights q_normals]. rewrite !map_map. split; [reflexivity|]. split; [reflexivity|]. split; [reflexivity|]. discriminate.
    + intros [|[|[|i]]] e f H; cbn in H; try (destruct i; discriminate); injection H as <-; cbn; tauto.
  - split; [vm_compute; reflexivity|]. split; [reflexivity|]. split; [cbn; intros [Q|[]]; discriminate|]. split; [cbn; tauto|]. split; [vm_compute; reflexivity|]. split; [reflexivity|]. split; [left; reflexivity|vm_compute; reflexivity].
Qed.
Print Assumptions C137_interior_facets_refuted.

(** C137, the part that holds: in integrals without empty facets the right kernel runs on every interior facet; the points of the second side are the same facet points placed in the
    second cell. The generated function is assumed to find the offset at [w[cs]]: see C139. *)
Theorem C137_interior_facets_partial : forall argsort cut_cells empty_cells cut_facets empty_facets rc rf create_cells create_facets ctyp all_perms junk ct mixed qds dom gdim fdim cs old hist,
  stable_argsort argsort ->
  setting cut_cells empty_cells cut_facets empty_facets rc rf ctyp all_perms mixed create_cells create_facets qds dom gdim fdim ->
  is_interior dom = true -> (forall i e, entity_at dom i = Some e -> ~ empty_entity empty_cells empty_facets e) ->
  shape_ok ct (2 * shape0 dom) cs old -> (forall rows, In rows hist -> shape_ok ct (2 * shape0 dom) cs rows) ->
  exists mem mem',
    pack argsort cut_cells empty_cells cut_facets empty_facets create_cells create_facets ctyp all_perms junk ct mixed qds dom gdim fdim cs old = Ret mem
    /\ updates ct cs hist mem = Ret mem'
    /\ (forall i e, entity_at dom i = Some e -> exists k,
          wrapper ct mixed qds dom gdim fdim mem' (2 * i * ncols ct cs) cs = Ret k
          /\ right_run cut_cells empty_cells cut_facets empty_facets rc rf ctyp all_perms mixed qds e k).
Proof.
  intros argsort cut_cells empty_cells cut_facets empty_facets rc rf create_cells create_facets ctyp all_perms junk ct mixed qds dom gdim fdim cs old hist AS ST NI NE SO SH.
  assert (NR : n_rows dom = 2 * shape0 dom) by (unfold n_rows; rewrite NI; reflexivity). assert (RO : forall i, row_of dom i = 2 * i) by (intros i; unfold row_of; rewrite NI; reflexivity).
  destruct (packed_after argsort cut_cells empty_cells cut_facets empty_facets rc rf create_cells create_facets ctyp all_perms junk ct mixed qds dom gdim fdim AS ST (fun _ => NE) cs old hist) as [mem [mem' [E1 [E2 [A B]]]]].
  { rewrite NR. exact SO. } { rewrite NR. exact SH. }
  exists mem, mem'. split; [exact E1|]. split; [exact E2|]. intros i e Hi. specialize (A i e Hi). rewrite RO in A. exact A.
Qed.
Print Assumptions C137_interior_facets_partial.
Example C137_case : setting [] [] (fun _ => [(3, 2)]) (fun _ => []) ex_rule ex_rf CQuadrilateral [[]; []; []; [0; 0; 1; 0]; [0; 1]] false ex_create ex_createf
    [{| qd_id := 0; qd_unf := false |}] (Int [((0, 3), (1, 0)); ((3, 2), (4, 1))]) 2 1
  /\ forall i e, entity_at (Int [((0, 3), (1, 0)); ((3, 2), (4, 1))]) i = Some e -> ~ empty_entity [] (fun _ => []) e.
Proof.
  split.
  - unfold setting. split; [constructor|]. split; [constructor|]. split; [exact I|].
    split. { intros [|[|i]] e H; cbn in H; try (destruct i; discriminate); injection H as <-; cbn; tauto. }
    split; [reflexivity|]. split; [reflexivity|]. split; [cbn; lia|]. split; [intros qd [<-|[]]; reflexivity|]. split; [|split].
    + intros qd f _ _. unfold rule_ok. cbn. split; [reflexivity|]. split; [repeat constructor|]. discriminate.
    + intros qd fs. unfold gathers, ex_createf. cbn [q_npts q_points q_weights q_normals]. rewrite !map_map. split; [reflexivity|]. split; [reflexivity|]. split; [reflexivity|]. discriminate.
    + intros [|[|i]] e f H; cbn in H; try (destruct i; discriminate); injection H as <-; cbn; intros [Q|[]]; try discriminate.
      intros [<-|[<-|[]]]; (split; [cbn; lia|]); intros _; cbn; (split; [lia|]); (split; [lia|]); exists CInterval; (split; [reflexivity|]); (split; [cbn; lia|discriminate]).
  - intros [|[|i]] e H; cbn in H; try (destruct i; discriminate); injection H as <-; cbn; tauto.
Qed.

Lemma rd_stop mem : forall n p k, k < n -> (forall x, nth_error mem (p + k) <> Some (Num x)) -> rd mem p n = UB \/ exists j, j < k /\ forall x, nth_error mem (p + j) <> Some (Num x).
Proof.
  induction n as [|n IH]; intros p k H N; [lia|]. cbn [rd]. destruct (nth_error mem p) as [[x|z|]|] eqn:Q; try (left; reflexivity).
  destruct k as [|k]; [rewrite Nat.add_0_r in N; exfalso; exact (N x Q)|].
  destruct (IH (S p) k) as [E|[j [J1 J2]]]; [lia|intros y; replace (S p + k) with (p + S k) by lia; apply N| |].
  - left. rewrite E. reflexivity.
  - right. exists (S j). split; [lia|]. intros y. replace (p + S j) with (S p + j) by lia. apply J2.
Qed.
(** C138: in an integral over interior facets the kernels find the coefficients of the facet [i] (both sides: rows [2 i] and [2 i + 1] of the DOLFINx array, which
    is contiguous) behind [w]. False for every such integral with coefficients: the offset of the first side lies between them. *)
Theorem C138_interior_coefficients_refuted : forall argsort cut_cells empty_cells cut_facets empty_facets rc rf create_cells create_facets ctyp all_perms junk ct mixed qds dom gdim fdim cs old,
  stable_argsort argsort ->
  setting cut_cells empty_cells cut_facets empty_facets rc rf ctyp all_perms mixed create_cells create_facets qds dom gdim fdim ->
  is_interior dom = true -> (forall i e, entity_at dom i = Some e -> ~ empty_entity empty_cells empty_facets e) ->
  shape_ok ct (2 * shape0 dom) cs old -> 0 < cs ->
  exists mem,
    pack argsort cut_cells empty_cells cut_facets empty_facets create_cells create_facets ctyp all_perms junk ct mixed qds dom gdim fdim cs old = Ret mem
    /\ forall i, i < shape0 dom -> rd mem (2 * i * ncols ct cs) (2 * cs * ratio ct) = UB.
Proof.
  intros argsort cut_cells empty_cells cut_facets empty_facets rc rf create_cells create_facets ctyp all_perms junk ct mixed qds dom gdim fdim cs old AS ST NI NE [O1 O2] CP.
  assert (NR : n_rows dom = 2 * shape0 dom) by (unfold n_rows; rewrite NI; reflexivity). assert (RO : forall i, row_of dom i = 2 * i) by (intros i; unfold row_of; rewrite NI; reflexivity).
  destruct (pack_ok argsort cut_cells empty_cells cut_facets empty_facets rc rf create_cells create_facets ctyp all_perms junk ct mixed qds dom gdim fdim AS ST cs old ltac:(lia) O2 (fun _ => NE)) as [mem [O [E1 [D1 [F1 [R1 L1]]]]]].
  exists mem. split; [exact E1|]. intros i Hi.
  assert (EX : exists e, entity_at dom i = Some e).
  { destruct dom as [l|l|l]; try discriminate. cbn in *. destruct (nth_error l i) eqn:Q; [eexists; reflexivity|]. apply nth_error_None in Q. lia. }
  destruct EX as [e He]. destruct (F1 i e He) as [z [Z1 _]]. rewrite RO in Z1.
  assert (RP : 0 < ratio ct) by (destruct ct; cbn; lia).
  assert (NN : forall x, nth_error mem (2 * i * ncols ct cs + cs * ratio ct) <> Some (Num x)).
  { intros x Q. assert (T : exists l, encode_offset ct z = Off z :: l) by (destruct ct; eexists; reflexivity). destruct T as [l T]. rewrite T, seg_cons in Z1. destruct Z1 as [Z1 _]. congruence. }
  destruct (rd_stop mem (2 * cs * ratio ct) (2 * i * ncols ct cs) (cs * ratio ct)) as [E|[j [J1 J2]]]; [|exact NN|exact E|].
  - assert (0 < cs * ratio ct) by (apply Nat.mul_pos_pos; assumption). lia.
  - exfalso. assert (S2 := R1 (2 * i) ltac:(lia)). assert (Lw := O2 (nth (2 * i) old []) ltac:(apply nth_In; lia)).
    destruct (nth_error (nth (2 * i) old []) j) as [x|] eqn:Q; [|apply nth_error_None in Q; lia].
    apply (J2 x). apply S2. rewrite nth_error_map, Q. reflexivity.
Qed.
Print Assumptions C138_interior_coefficients_refuted.

(** C139: where the generated function looks for the offset. Over cells and exterior facets it is the first value after all the coefficients, where the packer
    puts it. *)
Theorem C139_offset_position : forall dims, coeffs_offset (ffcx_offsets false dims) dims = sum dims.
Proof.
  intros dims. unfold coeffs_offset, ffcx_offsets. rewrite (map_ext _ (fun d => d)) by (intros d; lia). rewrite map_id.
  assert (G : forall l a d, last (starts a (l ++ [d])) 0 = a + sum l).
  { induction l as [|x l IH]; intros a d; [unfold sum; cbn; lia|]. cbn [app starts]. specialize (IH (a + x) d). destruct (starts (a + x) (l ++ [d])) eqn:Q; [destruct l; discriminate|]. cbn [last] in *. rewrite IH. unfold sum. cbn. lia. }
  destruct dims as [|d dims]; [reflexivity|]. destruct (exists_last (l := d :: dims) ltac:(discriminate)) as [l [x E]]. rewrite E.
  assert (NN : starts 0 (l ++ [x]) <> []) by (destruct l; discriminate). destruct (starts 0 (l ++ [x])) eqn:Q; [contradiction|]. rewrite <- Q, G, last_last, sum_app. unfold sum. cbn. lia.
Qed.
Print Assumptions C139_offset_position.
(** Over interior facets it is wrong as soon as there are two coefficients: beyond the place where the packer puts it. *)
Theorem C139_offset_position_interior_refuted : forall dims, (forall d, In d dims -> 0 < d) -> 1 < length dims -> sum dims < coeffs_offset (ffcx_offsets true dims) dims.
Proof.
  intros dims HP HL. unfold coeffs_offset, ffcx_offsets.
  assert (G : forall l a d, last (starts a (l ++ [d])) 0 = a + sum l).
  { induction l as [|x l IH]; intros a d; [unfold sum; cbn; lia|]. cbn [app starts]. specialize (IH (a + x) d). destruct (starts (a + x) (l ++ [d])) eqn:Q; [destruct l; discriminate|]. cbn [last] in *. rewrite IH. unfold sum. cbn. lia. }
  assert (D : forall l, sum (map (fun d => 2 * d) l) = 2 * sum l) by (induction l as [|x l IH]; unfold sum in *; cbn in *; lia).
  destruct dims as [|d dims]; [cbn in HL; lia|]. destruct (exists_last (l := d :: dims) ltac:(discriminate)) as [l [x E]]. rewrite E in *.
  rewrite map_app. cbn [map]. assert (NN : starts 0 (map (fun d => 2 * d) l ++ [2 * x]) <> []) by (destruct l; discriminate).
  destruct (starts 0 (map (fun d => 2 * d) l ++ [2 * x])) eqn:Q; [contradiction|]. rewrite <- Q, G, last_last, sum_app, D. rewrite app_length in HL. cbn in HL.
  destruct l as [|y l]; [cbn in HL; lia|]. assert (0 < y) by (apply HP; left; reflexivity). unfold sum. cbn. lia.
Qed.
Print Assumptions C139_offset_position_interior_refuted.
Example C139_case : coeffs_offset (ffcx_offsets false [4; 8; 3]) [4; 8; 3] = 15 /\ coeffs_offset (ffcx_offsets true [4]) [4] = 4 /\ coeffs_offset (ffcx_offsets true [4; 8]) [4; 8] = 16.
Proof. repeat split. Qed.
