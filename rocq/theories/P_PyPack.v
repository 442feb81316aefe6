(** The coefficients of custom integrals (custom_coefficients.py) as the generated kernels read them (codegeneration.py). *)
From Coq Require Import List ZArith Reals Lra Lia Arith Sorting.Sorted Permutation.
From Verif Require Import M_PyBase M_PyFacets M_PyQuadUtils M_PyPack S_PyQuadUtils S_PyPack L_PyNodes L_PyFacets L_PyQuadUtils L_PyPack L_PyPack2 L_PyPack3 L_PyPack4 L_PyPack5 L_PyPack6 L_PyPack7.
Import ListNotations.
Local Open Scope nat_scope.

(** The rows and the runs of a packed array. *)
Lemma packed_after argsort cut_cells empty_cells cut_facets empty_facets rc rf create_cells create_facets ctyp all_perms junk ct mixed qds dom gdim fdim :
  stable_argsort argsort ->
  setting cut_cells empty_cells cut_facets empty_facets rc rf ctyp all_perms mixed create_cells create_facets qds dom gdim fdim ->
  (is_interior dom = true -> forall i e, entity_at dom i = Some e -> ~ empty_entity empty_cells empty_facets e) ->
  forall cs old hist, shape_ok ct (n_rows dom) cs old -> (forall rows, In rows hist -> shape_ok ct (n_rows dom) cs rows) ->
  exists mem mem',
    pack argsort cut_cells empty_cells cut_facets empty_facets create_cells create_facets ctyp all_perms junk ct mixed qds dom gdim fdim cs old = Ret mem
    /\ updates ct cs hist mem = Ret mem'
    /\ (forall i e, entity_at dom i = Some e -> exists k,
          wrapper ct mixed qds dom gdim fdim mem' (row_of dom i * ncols ct cs) cs = Ret k
          /\ right_run cut_cells empty_cells cut_facets empty_facets rc rf ctyp all_perms mixed qds e k)
    /\ (forall r, r < n_rows dom -> rd mem' (r * ncols ct cs) (cs * ratio ct) = Ret (nth r (last hist old) [])).
Proof.
  intros AS ST NE cs old hist [O1 O2] HH.
  destruct (pack_ok argsort cut_cells empty_cells cut_facets empty_facets rc rf create_cells create_facets ctyp all_perms junk ct mixed qds dom gdim fdim AS ST cs old ltac:(lia) O2 NE) as [mem [O [E1 [D1 [F1 [R1 L1]]]]]].
  destruct (updates_ok ct cs (n_rows dom) hist old mem (conj O1 O2) HH L1) as [mem' [E2 [L2 [R2 F2]]]].
  { intros r Hr. apply R1. lia. }
  assert (NCs : cs * ratio ct + n_extra_cols ct * ratio ct = ncols ct cs) by (unfold ncols; lia).
  exists mem, mem'. split; [exact E1|]. split; [exact E2|]. split.
  - intros i e Hi. destruct (F1 i e Hi) as [z [Z1 Z2]].
    apply (run_ok argsort cut_cells empty_cells cut_facets empty_facets rc rf create_cells create_facets ctyp all_perms junk ct mixed qds dom gdim fdim AS ST cs old ltac:(lia) O2 mem' O i e z Hi); [| |exact Z2].
    + intros j Hj. destruct (D1 j Hj) as [A B]. split; [exact A|]. apply (seg_agree mem); [|exact B]. intros k Hk. apply F2. left. lia.
    + apply (seg_agree mem); [|exact Z1]. intros k Hk. apply F2. right. exists (row_of dom i). rewrite encode_len in Hk. rewrite Nat.mul_add_distr_r. lia.
  - intros r Hr. specialize (R2 r Hr). assert (Q : shape_ok ct (n_rows dom) cs (last hist old)).
    { destruct (in_dec (list_eq_dec (list_eq_dec Req_EM_T)) (last hist old) hist) as [I|I]; [apply HH; exact I|].
      destruct hist as [|h hist]; [split; assumption|]. exfalso. apply I. clear. revert h. induction hist as [|a hist IH]; intros h; [left; reflexivity|]. right. apply (IH a). }
    destruct Q as [Q1 Q2]. rewrite <- (Q2 (nth r (last hist old) [])) by (apply nth_In; lia). apply rd_seg. exact R2.
Qed.

(** C135: over cells and exterior facets, the packed coefficients make the generated function run the right kernel on every entity: the custom kernel on
    cut entities, with exactly the points, weights and normals of the quadrature rules of that entity, one rule per integrand; the original kernel on
    full entities; nothing on empty ones. The original coefficients of every entity are still found at the start of its row. [mem] and positions are
    counted in real slots; the row of entity [i] starts at [i * ncols ct cs], and the generated function looks for the offset at [w[cs]]. *)
Theorem C135_packed_entities : forall argsort cut_cells empty_cells cut_facets empty_facets rc rf create_cells create_facets ctyp all_perms junk ct mixed qds dom gdim fdim cs old,
  stable_argsort argsort ->
  setting cut_cells empty_cells cut_facets empty_facets rc rf ctyp all_perms mixed create_cells create_facets qds dom gdim fdim ->
  is_interior dom = false -> shape_ok ct (shape0 dom) cs old ->
  exists mem,
    pack argsort cut_cells empty_cells cut_facets empty_facets create_cells create_facets ctyp all_perms junk ct mixed qds dom gdim fdim cs old = Ret mem
    /\ (forall i e, entity_at dom i = Some e -> exists k,
          wrapper ct mixed qds dom gdim fdim mem (i * ncols ct cs) cs = Ret k
          /\ right_run cut_cells empty_cells cut_facets empty_facets rc rf ctyp all_perms mixed qds e k)
    /\ (forall i, i < shape0 dom -> rd mem (i * ncols ct cs) (cs * ratio ct) = Ret (nth i old [])).
Proof.
  intros argsort cut_cells empty_cells cut_facets empty_facets rc rf create_cells create_facets ctyp all_perms junk ct mixed qds dom gdim fdim cs old AS ST NI SO.
  assert (NR : n_rows dom = shape0 dom) by (unfold n_rows; rewrite NI; reflexivity). assert (RO : forall i, row_of dom i = i) by (intros i; unfold row_of; rewrite NI; reflexivity).
  destruct (packed_after argsort cut_cells empty_cells cut_facets empty_facets rc rf create_cells create_facets ctyp all_perms junk ct mixed qds dom gdim fdim AS ST ltac:(congruence) cs old []) as [mem [mem' [E1 [E2 [A B]]]]].
  { rewrite NR. exact SO. } { intros rows []. }
  injection E2 as <-. exists mem. split; [exact E1|]. split.
  - intros i e Hi. specialize (A i e Hi). rewrite RO in A. exact A.
  - intros i Hi. apply B. lia.
Qed.
Print Assumptions C135_packed_entities.

(** C136: the same after any history of update_coefficients; the coefficients found are the latest ones. *)
Theorem C136_updates_keep_quadratures : forall argsort cut_cells empty_cells cut_facets empty_facets rc rf create_cells create_facets ctyp all_perms junk ct mixed qds dom gdim fdim cs old hist,
  stable_argsort argsort ->
  setting cut_cells empty_cells cut_facets empty_facets rc rf ctyp all_perms mixed create_cells create_facets qds dom gdim fdim ->
  is_interior dom = false -> shape_ok ct (shape0 dom) cs old -> (forall rows, In rows hist -> shape_ok ct (shape0 dom) cs rows) ->
  exists mem mem',
    pack argsort cut_cells empty_cells cut_facets empty_facets create_cells create_facets ctyp all_perms junk ct mixed qds dom gdim fdim cs old = Ret mem
    /\ updates ct cs hist mem = Ret mem'
    /\ (forall i e, entity_at dom i = Some e -> exists k,
          wrapper ct mixed qds dom gdim fdim mem' (i * ncols ct cs) cs = Ret k
          /\ right_run cut_cells empty_cells cut_facets empty_facets rc rf ctyp all_perms mixed qds e k)
    /\ (forall i, i < shape0 dom -> rd mem' (i * ncols ct cs) (cs * ratio ct) = Ret (nth i (last hist old) [])).
Proof.
  intros argsort cut_cells empty_cells cut_facets empty_facets rc rf create_cells create_facets ctyp all_perms junk ct mixed qds dom gdim fdim cs old hist AS ST NI SO SH.
  assert (NR : n_rows dom = shape0 dom) by (unfold n_rows; rewrite NI; reflexivity). assert (RO : forall i, row_of dom i = i) by (intros i; unfold row_of; rewrite NI; reflexivity).
  destruct (packed_after argsort cut_cells empty_cells cut_facets empty_facets rc rf create_cells create_facets ctyp all_perms junk ct mixed qds dom gdim fdim AS ST ltac:(congruence) cs old hist) as [mem [mem' [E1 [E2 [A B]]]]].
  { rewrite NR. exact SO. } { rewrite NR. exact SH. }
  exists mem, mem'. split; [exact E1|]. split; [exact E2|]. split.
  - intros i e Hi. specialize (A i e Hi). rewrite RO in A. exact A.
  - intros i Hi. apply B. lia.
Qed.
Print Assumptions C136_updates_keep_quadratures.

(** A concrete integral over the cells 5, 2, 7 of a quadrilateral mesh: 2 is cut, 7 is empty; two integrands, the second on the unfitted boundary. *)
Definition ex_rule (qd : qdata) (c : nat) : rule :=
  {| r_pts := [[1/4; 1/2]; [3/4; 1/2]]%R; r_w := [1/2; INR (c + qd_id qd)]%R; r_nrm := [[1; 0]; [0; 1]]%R |}.
Definition ex_create (qd : qdata) (cs : list nat) : cquad :=
  {| q_npts := map (fun c => length (r_w (ex_rule qd c))) cs; q_points := concat (map (fun c => r_pts (ex_rule qd c)) cs);
     q_weights := concat (map (fun c => r_w (ex_rule qd c)) cs); q_normals := concat (map (fun c => r_nrm (ex_rule qd c)) cs) |}.
Definition ex_rf (qd : qdata) (ext : bool) (f : facet) : rule := {| r_pts := [[1/4]]%R; r_w := [INR (fst f + snd f)]%R; r_nrm := [] |}.
Definition ex_createf (qd : qdata) (fs : list facet) (ext : bool) : cquad :=
  {| q_npts := map (fun f => length (r_w (ex_rf qd ext f))) fs; q_points := concat (map (fun f => r_pts (ex_rf qd ext f)) fs);
     q_weights := concat (map (fun f => r_w (ex_rf qd ext f)) fs); q_normals := [] |}.
Definition ex_qds : list qdata := [{| qd_id := 0; qd_unf := false |}; {| qd_id := 1; qd_unf := true |}].
Example C135_case :
  stable_argsort nsort
  /\ setting [2; 4] [7] (fun _ => []) (fun _ => []) ex_rule ex_rf CQuadrilateral [] false ex_create ex_createf ex_qds (Cells [5; 2; 7]) 2 1
  /\ shape_ok C128 3 1 [[1; 2]; [3; 4]; [5; 6]]%R.
Proof.
  split; [exact nsort_ok|]. split.
  - unfold setting. split; [repeat (constructor; [cbn; lia|]); constructor|]. split; [repeat (constructor; [cbn; lia|]); constructor|]. split; [cbn; repeat (constructor; [cbn; lia|]); constructor|].
    split. { intros [|[|[|i]]] e H; cbn in H; try (destruct i; discriminate); injection H as <-; cbn; lia. }
    split; [reflexivity|]. split; [reflexivity|]. split; [reflexivity|]. split.
    + intros qd c _ _. unfold rule_ok. cbn. split; [reflexivity|]. split; [repeat constructor|]. intros _. split; [reflexivity|repeat constructor].
    + intros qd cs. unfold gathers, ex_create. cbn [q_npts q_points q_weights q_normals]. rewrite !map_map. auto.
  - split; [reflexivity|]. intros r [<-|[<-|[<-|[]]]]; reflexivity.
Qed.
(** And over exterior facets: (0, 1) is full, (3, 2) is cut, (4, 0) is empty; mixed dimensions, facet 2 of cell 3 is reflected. *)
Example C135_case_facets :
  setting [] [] (fun _ => [(3, 2)]) (fun _ => [(4, 0)]) ex_rule ex_rf CQuadrilateral [[]; []; []; [0; 0; 1; 0]] true ex_create ex_createf
    [{| qd_id := 0; qd_unf := false |}] (Ext [(0, 1); (3, 2); (4, 0)]) 2 1.
Proof.
  unfold setting. split; [constructor|]. split; [constructor|]. split; [exact I|].
  split. { intros [|[|[|i]]] e H; cbn in H; try (destruct i; discriminate); injection H as <-; cbn; intros [Q|[]] [Q'|[]]; congruence. }
  split; [reflexivity|]. split; [reflexivity|]. split; [cbn; lia|]. split; [intros qd [<-|[]]; reflexivity|]. split; [|split].
  - intros qd f _ _. unfold rule_ok. cbn. split; [reflexivity|]. split; [repeat constructor|]. discriminate.
  - intros qd fs. unfold gathers, ex_createf. cbn [q_npts q_points q_weights q_normals]. rewrite !map_map. split; [reflexivity|]. split; [reflexivity|]. split; [reflexivity|]. discriminate.
  - intros [|[|[|i]]] e f H; cbn in H; try (destruct i; discriminate); injection H as <-; cbn; intros [Q|[]]; try discriminate. intros [<-|[]].
    split; [cbn; lia|]. intros _. cbn. split; [lia|]. split; [lia|]. exists CInterval. split; [reflexivity|]. split; [cbn; lia|discriminate].
Qed.
(** What is seen on the three cells. *)
Example C135_values : exists mem,
  pack nsort [2; 4] [7] (fun _ => []) (fun _ => []) ex_create ex_createf CQuadrilateral [] (fun _ => []) C128 false ex_qds (Cells [5; 2; 7]) 2 1 1 [[1; 2]; [3; 4]; [5; 6]]%R = Ret mem
  /\ wrapper C128 false ex_qds (Cells [5; 2; 7]) 2 1 mem (0 * ncols C128 1) 1 = Ret RunOriginal
  /\ wrapper C128 false ex_qds (Cells [5; 2; 7]) 2 1 mem (2 * ncols C128 1) 1 = Ret RunNothing
  /\ wrapper C128 false ex_qds (Cells [5; 2; 7]) 2 1 mem (1 * ncols C128 1) 1
     = Ret (RunCustom [{| l_pts := [1/4; 1/2; 3/4; 1/2]%R; l_pts1 := []; l_fpts := []; l_w := [1/2; INR 2]%R; l_nrm := [] |};
                       {| l_pts := [1/4; 1/2; 3/4; 1/2]%R; l_pts1 := []; l_fpts := []; l_w := [1/2; INR 3]%R; l_nrm := [1; 0; 0; 1]%R |}]).
Proof.
  destruct (C135_packed_entities nsort [2; 4] [7] (fun _ => []) (fun _ => []) ex_rule ex_rf ex_create ex_createf CQuadrilateral [] (fun _ => []) C128 false ex_qds (Cells [5; 2; 7]) 2 1 1 [[1; 2]; [3; 4]; [5; 6]]%R
    (proj1 C135_case) (proj1 (proj2 C135_case)) eq_refl (proj2 (proj2 C135_case))) as [mem [E [A _]]].
  exists mem. split; [exact E|]. split; [|split].
  - destruct (A 0 _ eq_refl) as [k [K1 [_ [_ K2]]]]. rewrite K1. rewrite K2; [reflexivity| |]; cbn; lia.
  - destruct (A 2 _ eq_refl) as [k [K1 [_ [K2 _]]]]. rewrite K1. rewrite K2; [reflexivity|]. cbn. auto.
  - destruct (A 1 _ eq_refl) as [k [K1 [K2 _]]]. rewrite K1. rewrite K2; [reflexivity|]. cbn. auto.
Qed.
