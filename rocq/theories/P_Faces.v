(** Theorems on the faces of the box reached by the mesh of a level set (C108). *)
From Coq Require Import Reals List Lia Lra Permutation Sorted Arith ZArith.
From Verif Require Import M_Reparam M_General S_General S_Geo S_Faces S_Mesh S_Roots L_Real L_BBox L_Point L_TensorNat L_Mesh L_Mesh5 L_Roots P_Roots L_General L_General2 L_General3 L_General4 L_General5 L_General6 L_General7 L_Orient L_Orient3 L_Reparam L_Reparam2 L_Reparam3 L_Geo1 L_Geo2 L_Geo3 L_Geo4 L_Geo5 L_Geo6 L_Geo7 L_Faces L_Saddle P_General P_Geo.
From Verif Require S_Affine.
Import ListNotations.
Local Close Scope Z_scope. Local Close Scope nat_scope. Local Open Scope R_scope.

(** C108: in the plane, when the direction k is chosen at the first box, the mesh of the level set reaches each of the two sides of the box in the other
    direction on which the function takes both signs (by more than the accuracy of the points). *)
Theorem C108_faces_partial : forall O grad fresh m n0 dom M k s, sound O 2 -> exact O dom -> ends_nodes (o_cheb O) -> large_box 2 dom -> moderate (o_phi O) dom M ->
  valid 1 (m_order m) (m_points m) (m_conn m) (m_wires m) -> Forall (fun p => length p = 2%nat) (m_points m) -> length (m_conn m) = (n0 * m_order m ^ 1)%nat ->
  chooses O dom k -> (s < 2)%nat -> crosses_face (o_phi O) dom (1 - k) s (accuracy M) ->
  exists m' new_points, reparam_general O grad fresh 2 true m dom = Ret m' /\ m_points m' = m_points m ++ new_points /\ reaches_face dom (1 - k) s new_points.
Proof.
  intros O grad fresh m n0 dom M k s HO HX HE HB HM V Rm Hn Hk Hs Hc. destruct (general_points O grad fresh 2 true m n0 dom (or_introl eq_refl) HO HB V Rm Hn) as (m' & m1 & np & E & E1 & Ep & Ep1 & Hin).
  exists m', np. split; [exact E|]. split; [congruence|]. apply cells_run in E1 as (evs & refs & mp & EC & E2). destruct (face_top O (m_order m) dom M k s HO HX HB HM (proj1 V) HE Hk Hc evs refs Hs EC) as (t & p & x & Hi & Hx).
  destruct (run_appends _ _ t p x _ _ _ _ _ E2 Hi) as (np' & Ep2 & Hnp). rewrite Ep1 in Ep2. apply app_inv_head in Ep2. subst np'. exists x. auto.
Qed.
Print Assumptions C108_faces_partial.

(** In the space this is false, whatever the accuracy: the mesh of the level set of 9 x + 10 y - 18 + z (27 - 6 x - 20 y) in the unit cube does not have any point
    with x < 1/4, although on the side x = 0 the function is -18 at one vertex and 9 at another one. *)
Lemma sad_ends : ends_nodes (o_cheb sad_oracles).
Proof. intros n Hn. cbn [sad_oracles o_cheb]. assert (0 < INR (n - 1)) by (apply lt_0_INR; lia). split; [cbn [INR]; unfold Rdiv; ring|field; lra]. Qed.
Theorem C108_faces_refuted : exists O, sound O 3 /\ exact O cube3 /\ ends_nodes (o_cheb O) /\ large_box 3 cube3 /\ moderate (o_phi O) cube3 1 /\ o_signs O = algoim_signs /\
  (forall x y z, o_phi O [x; y; z] = 9 * x + 10 * y - 18 + z * (27 - 6 * x - 20 * y)) /\ crosses_face (o_phi O) cube3 0 0 8 /\
  forall grad fresh order, (2 <= order)%nat -> exists m', reparam_general O grad fresh 3 true (mk_mesh order [] [] []) cube3 = Ret m' /\ Forall (fun p => 1 / 4 <= nth 0 p 0) (m_points m') /\ ~ reaches_face cube3 0 0 (m_points m').
Proof.
  exists sad_oracles. split; [apply sad_sound|]. split; [apply sad_exact; reflexivity|]. split; [apply sad_ends|]. split; [apply cube3_large|]. split; [apply sad_moderate|]. split; [reflexivity|]. split; [reflexivity|]. split.
  - exists [0; 0; 0], [0; 0; 1]. split; [|split; [|split; [reflexivity|split; [reflexivity|split; cbn [sad_oracles o_phi sad nth]; unfold sad; cbn [nth]; lra]]]]; (split; [reflexivity|]); intros [|[|[|d]]] Hd; cbn in Hd |- *; try lia; lra.
  - intros grad fresh order Ho. assert (V : vm (mesh_dim 3 true) (mk_mesh order [] [] [])) by (split; [cbn; lia|]; split; [exists 0%nat; reflexivity|]; split; [exists 0%nat; reflexivity|]; split; constructor).
    destruct (general_points sad_oracles grad fresh 3 true (mk_mesh order [] [] []) 0 cube3 (or_intror eq_refl) sad_sound cube3_large V (Forall_nil _) eq_refl) as (m' & m1 & np & E & E1 & Ep & _). exists m'. split; [exact E|].
    apply cells_run in E1 as (evs & refs & mp & EC & E2). cbn [m_order] in EC. assert (F := sad_events order evs refs Ho EC).
    destruct (run_points (o_cheb sad_oracles) (mesh_dim 3 true) order (fun x => 1 / 4 <= nth 0 x 0) (fun _ => False) ltac:(intros ? ? []) evs (mk_mesh order [] [] []) [] m1 mp eq_refl F E2) as (_ & np' & Ep2 & Fp). cbn [m_points app] in Ep2. rewrite Ep, Ep2. split; [exact Fp|].
    intros (p & Hp & Hx). rewrite Forall_forall in Fp. specialize (Fp p Hp). rewrite Hx in Fp. cbn in Fp. lra.
Qed.
Print Assumptions C108_faces_refuted.

(** The hypotheses are met: the line x / 2 + y = 3 / 5 in the unit square reaches the sides x = 0 and x = 1. *)
Lemma lin_ends a b : ends_nodes (o_cheb (lin_oracles a b)).
Proof. intros n Hn. cbn [lin_oracles o_cheb]. assert (0 < INR (n - 1)) by (apply lt_0_INR; lia). split; [cbn [INR]; unfold Rdiv; ring|field; lra]. Qed.
Example ex_faces : forall s, (s < 2)%nat -> exists m' new_points, reparam_general (lin_oracles [/ 2; 1] (3 / 5)) (fun _ => [/ 2; 1]) (fun _ _ => [0; 0]) 2 true (mk_mesh 4 [] [] []) ex_box = Ret m' /\ m_points m' = new_points /\ reaches_face ex_box 0 s new_points.
Proof.
  intros s Hs. assert (T := tol_small). assert (Ac : accuracy 1 < / 100) by (unfold accuracy; change (10 * / 2 ^ 52) with default_tol; lra).
  apply (C108_faces_partial (lin_oracles [/ 2; 1] (3 / 5)) _ _ (mk_mesh 4 [] [] []) 0 ex_box 1 1 s); [apply lin_sound|apply lin_exact; reflexivity|apply lin_ends|exact ex_large| | |constructor|reflexivity| |exact Hs|].
  - apply (unit_moderate [/ 2; 1] (3 / 5) 2 eq_refl). intros [|[|k]] Hk; try lia; cbn [nth]; rewrite Rabs_pos_eq; lra.
  - split; [cbn; lia|]. split; [exists 0%nat; reflexivity|]. split; [exists 0%nat; reflexivity|]. split; constructor.
  - split; [lia|]. cbn [lin_oracles o_grad nth fst snd ex_box bmin bmax Nat.sub]. split; [destruct (Req_EM_T 1 0); [lra|reflexivity]|]. rewrite Rabs_R1, (Rabs_pos_eq (/ 2)) by lra. split; lra.
  - set (x := side_coord ex_box s 0). assert (Ex : 0 <= x <= 1) by (unfold x, side_coord; destruct s; cbn; lra). exists [x; 0], [x; 1]. split; [|split; [|split; [reflexivity|split; [reflexivity|]]]];
      try (split; [reflexivity|]; intros [|[|d]] Hd; cbn in Hd |- *; try lia; lra). cbn [lin_oracles o_phi]. unfold lin, S_Affine.inner. cbn [length seq map fold_right nth]. split; lra.
Qed.
