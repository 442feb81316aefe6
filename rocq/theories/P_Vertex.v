(** Theorems on the vertices of the box in the mesh of a region (C109). *)
From Coq Require Import Reals List Lia Lra Permutation Sorted Arith ZArith.
From Verif Require Import M_Reparam M_General S_General S_Geo S_Faces S_Vertex S_Mesh S_Roots L_Real L_BBox L_Point L_TensorNat L_Mesh L_Mesh5 L_Roots P_Roots L_General L_General2 L_General3 L_General4 L_General5 L_General6 L_General7 L_Orient L_Orient3 L_Reparam L_Reparam2 L_Reparam3 L_Geo1 L_Geo2 L_Geo3 L_Geo4 L_Geo5 L_Geo6 L_Geo7 L_Faces L_Saddle L_Vertex L_Vertex2 L_Region3 P_General P_Geo P_Faces.
From Verif Require S_Affine.
Import ListNotations.
Local Close Scope Z_scope. Local Close Scope nat_scope. Local Open Scope R_scope.

(** C109: in the plane, when the direction k is chosen at the first box and the boundary stays away from the two sides in this direction, every vertex of the
    box at which the function is negative is a point of the mesh of the region. *)
Theorem C109_vertices_partial : forall O grad fresh m n0 dom M k v, sound O 2 -> exact O dom -> ends_nodes (o_cheb O) -> large_box 2 dom -> moderate (o_phi O) dom M ->
  valid 2 (m_order m) (m_points m) (m_conn m) (m_wires m) -> Forall (fun p => length p = 2%nat) (m_points m) -> length (m_conn m) = (n0 * m_order m ^ 2)%nat ->
  chooses O dom k -> clear_sides (o_phi O) dom k (accuracy M) -> box_vertex dom v -> o_phi O v < 0 ->
  exists m' new_points, reparam_general O grad fresh 2 false m dom = Ret m' /\ m_points m' = m_points m ++ new_points /\ In v new_points.
Proof.
  intros O grad fresh m n0 dom M k v HO HX HE HB HM V Rm Hn Hk Hc Hv Nv. destruct (general_points O grad fresh 2 false m n0 dom (or_introl eq_refl) HO HB V Rm Hn) as (m' & m1 & np & E & E1 & Ep & Ep1 & Hin).
  exists m', np. split; [exact E|]. split; [congruence|]. apply cells_run in E1 as (evs & refs & mp & EC & E2).
  destruct (snd (o_value O (repeat true 2) dom (mk_psi (tp_const 2 0%nat) (-1)))) eqn:Eu.
  - assert (Ev := v_uniform O (m_order m) dom v HX HB (proj1 V) Hv Nv evs refs Eu EC). rewrite Ev in E2. destruct (v_full O (m_order m) dom v HB (proj1 V) HE Hv Nv m [] m1 mp eq_refl E2) as (np' & Ep2 & Hnp). rewrite Ep1 in Ep2. apply app_inv_head in Ep2. subst np'. exact Hnp.
  - destruct (v_event O (m_order m) dom M k v HO HX HB HM (proj1 V) HE Hk Hc Hv Nv evs refs Eu EC) as (t & p & Hi).
    destruct (run_appends _ _ t p v _ _ _ _ _ E2 Hi) as (np' & Ep2 & Hnp). rewrite Ep1 in Ep2. apply app_inv_head in Ep2. subst np'. exact Hnp.
Qed.
Print Assumptions C109_vertices_partial.

(** In the space this is false: the function 8 - 9 x + 10 y - z (1 + 20 y) is -3 at the vertex (0, 1, 1) of the unit cube, and no point of the mesh of the region has
    x < 1/2. *)
Lemma reg_ends : ends_nodes (o_cheb reg_oracles).
Proof. intros n Hn. cbn [reg_oracles o_cheb]. assert (0 < INR (n - 1)) by (apply lt_0_INR; lia). split; [cbn [INR]; unfold Rdiv; ring|field; lra]. Qed.
Theorem C109_vertices_refuted : exists O, sound O 3 /\ exact O cube3 /\ ends_nodes (o_cheb O) /\ large_box 3 cube3 /\ moderate (o_phi O) cube3 1 /\ o_signs O = algoim_signs /\
  (forall x y z, o_phi O [x; y; z] = 8 - 9 * x + 10 * y - z * (1 + 20 * y)) /\ box_vertex cube3 [0; 1; 1] /\ o_phi O [0; 1; 1] = -3 /\
  forall grad fresh order, (2 <= order)%nat -> exists m', reparam_general O grad fresh 3 false (mk_mesh order [] [] []) cube3 = Ret m' /\ Forall (fun p => 1 / 2 <= nth 0 p 0) (m_points m') /\ ~ In [0; 1; 1] (m_points m').
Proof.
  exists reg_oracles. split; [apply reg_sound|]. split; [apply reg_exact; reflexivity|]. split; [apply reg_ends|]. split; [apply cube3_large|]. split; [apply reg_moderate|]. split; [reflexivity|]. split; [reflexivity|]. split; [|split].
  - split; [reflexivity|]. intros [|[|[|d]]] Hd; cbn in Hd |- *; try lia; auto.
  - cbn [reg_oracles o_phi]. unfold reg. cbn [nth]. lra.
  - intros grad fresh order Ho. assert (V : vm (mesh_dim 3 false) (mk_mesh order [] [] [])) by (split; [cbn; lia|]; split; [exists 0%nat; reflexivity|]; split; [exists 0%nat; reflexivity|]; split; constructor).
    destruct (general_points reg_oracles grad fresh 3 false (mk_mesh order [] [] []) 0 cube3 (or_intror eq_refl) reg_sound cube3_large V (Forall_nil _) eq_refl) as (m' & m1 & np & E & E1 & Ep & _). exists m'. split; [exact E|].
    apply cells_run in E1 as (evs & refs & mp & EC & E2). cbn [m_order] in EC. assert (F := reg_events order evs refs Ho EC).
    destruct (run_points (o_cheb reg_oracles) (mesh_dim 3 false) order (fun x => 1 / 2 <= nth 0 x 0) (fun _ => False) ltac:(intros ? ? []) evs (mk_mesh order [] [] []) [] m1 mp eq_refl F E2) as (_ & np' & Ep2 & Fp). cbn [m_points app] in Ep2. rewrite Ep, Ep2. split; [exact Fp|].
    intros Hp. rewrite Forall_forall in Fp. specialize (Fp _ Hp). cbn [nth] in Fp. lra.
Qed.
Print Assumptions C109_vertices_refuted.

(** The hypotheses are met: the two lower vertices of the unit square belong to the mesh of the region x / 4 + y < 3 / 5. *)
Example ex_vertices : forall x, x = 0 \/ x = 1 -> exists m' new_points, reparam_general (lin_oracles [/ 4; 1] (3 / 5)) (fun _ => [/ 4; 1]) (fun _ _ => [0; 0]) 2 false (mk_mesh 4 [] [] []) ex_box = Ret m' /\ m_points m' = new_points /\ In [x; 0] new_points.
Proof.
  intros x Hx. assert (T := tol_small). assert (Ac : accuracy 1 < / 100) by (unfold accuracy; change (10 * / 2 ^ 52) with default_tol; lra).
  apply (C109_vertices_partial (lin_oracles [/ 4; 1] (3 / 5)) _ _ (mk_mesh 4 [] [] []) 0 ex_box 1 1 [x; 0]); [apply lin_sound|apply lin_exact; reflexivity|apply lin_ends|exact ex_large| | |constructor|reflexivity| | | |].
  - apply (unit_moderate [/ 4; 1] (3 / 5) 2 eq_refl). intros [|[|k]] Hk; try lia; cbn [nth]; rewrite Rabs_pos_eq; lra.
  - split; [cbn; lia|]. split; [exists 0%nat; reflexivity|]. split; [exists 0%nat; reflexivity|]. split; constructor.
  - split; [lia|]. cbn [lin_oracles o_grad nth fst snd ex_box bmin bmax Nat.sub]. split; [destruct (Req_EM_T 1 0); [lra|reflexivity]|]. rewrite Rabs_R1, (Rabs_pos_eq (/ 4)) by lra. split; lra.
  - intros y s Hs [Ly Hy] Ey. destruct y as [|a [|b [|]]]; cbn in Ly; try lia. assert (A := Hy 0%nat ltac:(cbn; lia)). cbn in A. assert (B : b = 0 \/ b = 1) by (destruct s as [|[|s]]; [left; exact Ey|right; exact Ey|lia]). cbn [lin_oracles o_phi]. unfold lin, S_Affine.inner. cbn [length seq map fold_right nth]. unfold Rabs. destruct (Rcase_abs _); destruct B; lra.
  - split; [reflexivity|]. intros [|[|d]] Hd; cbn in Hd |- *; try lia; [destruct Hx; auto|auto].
  - cbn [lin_oracles o_phi]. unfold lin, S_Affine.inner. cbn [length seq map fold_right nth]. destruct Hx; lra.
Qed.
