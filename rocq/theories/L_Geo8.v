(** Position of the points of a facet of the unit cube: a steep function for which a point of the mesh is far from the region. *)
From Coq Require Import Reals List Lia Lra Permutation Sorted Arith ZArith.
From Verif Require Import M_Reparam M_General S_General S_Geo S_Affine S_Mesh S_Roots L_Real L_BBox L_Point L_TensorNat L_Mesh L_Mesh5 L_Roots P_Roots L_General L_General2 L_General3 L_General4 L_General5 L_General6 L_General7 L_Reparam L_Reparam3 L_Geo1 L_Geo2 L_Geo3 L_Geo4 L_Geo5 L_Geo6 P_General L_Geo7.
Import ListNotations.
Local Close Scope Z_scope. Local Close Scope nat_scope. Local Open Scope R_scope.

Definition cube : bbox := mk_box [0; 0; 0] [1; 1; 1].
Section Steep.
Variables (sg : R) (St : bool).
Hypothesis Cs : sg = 1 /\ St = true \/ sg = -1 /\ St = false.
Definition steep3 : oracles := lin_oracles [sg * 2000; sg * 4000; 0] (sg * 4000 * (1 - default_tol / 2)).
Notation steep := steep3.
Notation U := cube.
Notation psi0 := (set_at (repeat (o_psi steep) (n_facets 3)) 0 (mk_psi (set_at (tp_const 3 0%nat) 2 0%nat) (-1))).
Notation p0 := (mk_psi (set_at (tp_const 3 0%nat) 2 0%nat) (-1)).
Lemma steep_phi x y z : o_phi steep [x; y; z] = sg * (2000 * x + 4000 * y - 4000 + 2000 * default_tol).
Proof. cbn [steep3 lin_oracles o_phi]. unfold lin, inner. cbn [length seq map fold_right nth]. lra. Qed.
Lemma sg_ne : sg * 4000 <> 0 /\ sg * 2000 <> 0.
Proof. destruct Cs as [[-> _]|[-> _]]; split; lra. Qed.
Lemma steep_sound : sound steep 3.
Proof. apply lin_sound. Qed.
Lemma steep_exact : exact steep U.
Proof. apply lin_exact. reflexivity. Qed.
Notation inc := (Rltb 0 (sg * 4000)).
Notation pa := (mk_psi [0%nat; 0%nat; 0%nat] (fst (o_signs steep St inc (-1)))).
Notation pb := (mk_psi [0%nat; 1%nat; 0%nat] (snd (o_signs steep St inc (-1)))).
Notation l1 := (mk_obj 1 false [true; false; false] [pa; pb; o_psi steep; o_psi steep] 2 U 0).
Notation l2 := (mk_obj 2 St [true; true; false] psi0 1 U 1).

Lemma steep_construct evs refs' : construct steep 3 2 2 n_max_subdivs St [] [] (set_at (repeat true 3) 2 false) psi0 1 U = Ret (evs, refs') ->
  exists refs es, compute_ref_intervals steep [l1; l2] [[]; []] [0; 0; 0] [0%nat; 0%nat; 0%nat] = Ret refs /\ process steep 3 2 [l1; l2] refs [0; 0; 0] [0%nat; 0%nat; 0%nat] [0%nat; 0%nat; 0%nat] = Ret es /\ evs = Clear :: es.
Proof.
  rewrite construct_S. destruct sg_ne as [N1 N2]. unfold prune. cbn [prune_loop Nat.ltb Nat.leb]. change (nth_error psi0 0) with (Some p0). cbn [steep3 lin_oracles o_value snd bind negb Nat.eqb]. fold steep3.
  assert (EH : height_direction steep 3 (set_at (repeat true 3) 2 false) U p0 = Some 1%nat).
  { unfold height_direction, height_step, extent, hi, lo. cbn [seq fold_left steep3 lin_oracles o_grad fst snd repeat nth andb cube bmin bmax set_at]. rewrite Rmult_0_r, !Rminus_0_r, !Rmult_1_r.
    replace (Rltb 0 (Rabs (sg * 2000))) with true by (symmetry; apply Rltb_true; apply Rabs_pos_lt; lra). cbn [fst snd].
    rewrite (proj2 (Rltb_true 0 (Rabs (sg * 4000)))) by (apply Rabs_pos_lt; lra). rewrite (proj2 (Rltb_true (Rabs (sg * 2000)) (Rabs (sg * 4000)))); [reflexivity|]. rewrite !Rabs_mult. rewrite (Rabs_pos_eq 2000), (Rabs_pos_eq 4000) by lra. assert (0 < Rabs sg) by (apply Rabs_pos_lt; lra). lra. }
  unfold psi_at. change (nth_error psi0 0) with (Some p0). cbn [bind]. rewrite EH. cbn [reduce_loop]. unfold psi_at. change (nth_error psi0 0) with (Some p0). cbn [bind].
  assert (EG : forall p, o_grad steep (set_at (repeat true 3) 2 false) U p 1 = (sg * 4000, 0, true)). { intros p. cbn [steep3 lin_oracles o_grad nth]. destruct (Req_EM_T (sg * 4000) 0); [contradiction|reflexivity]. }
  rewrite EG. cbn [fst snd length repeat n_facets Nat.sub Nat.pow Nat.mul Nat.add Nat.ltb Nat.leb ps_side ps_sign tp_const set_at bind]. intros E. apply bind_inv in E as ([es rs] & E & E2). injection E2 as <- <-.
  rewrite construct_1 in E. cbn [filter nth seq rev app set_at] in E. cbv zeta in E. apply bind_inv in E as (refs & E1 & E). apply bind_inv in E as (evs0 & E2 & E). injection E as <- <-. exists refs, evs0. split; [exact E1|]. split; [exact E2|reflexivity].
Qed.

Lemma tol1 l : l_box l = U -> (l_dir l < 3)%nat -> compute_tolerance l = default_tol.
Proof. intros E H. unfold compute_tolerance, tol_update, extent, lo, hi. rewrite E. assert (T := tol_small). destruct (l_dir l) as [|[|[|?]]]; [..|lia]; cbn [cube bmin bmax nth]; apply Rmax_left; lra. Qed.
Lemma W1 : wf_obj 3 l1.
Proof. assert (T := tol_small). constructor; cbn; try lia; try discriminate; try reflexivity. unfold extent, hi, lo. cbn. lra. Qed.
Lemma W2 : wf_obj 3 l2.
Proof. assert (T := tol_small). constructor; cbn; try lia; try discriminate; try reflexivity. unfold extent, hi, lo. cbn. lra. Qed.
Lemma wU : within U U.
Proof. split; [reflexivity|]. split; [reflexivity|]. intros [|[|[|d]]] Hd; cbn in Hd; try lia; cbn [cube bmin bmax nth]; lra. Qed.
Lemma mono2 pt s t : okpt 3 l2 pt -> inside l2 s -> inside l2 t -> s < t ->
  if inc then o_phi steep (line l2 p0 pt s) < o_phi steep (line l2 p0 pt t) else o_phi steep (line l2 p0 pt t) < o_phi steep (line l2 p0 pt s).
Proof.
  intros [Lp _] _ _ Hst. destruct pt as [|x [|y [|z [|]]]]; cbn in Lp; try lia. change (line l2 p0 [x; y; z] s) with [x; s; 0]. change (line l2 p0 [x; y; z] t) with [x; t; 0]. rewrite !steep_phi. destruct Cs as [[-> _]|[-> _]].
  - rewrite (proj2 (Rltb_true _ _)) by lra. lra.
  - rewrite (proj2 (Rltb_false _ _)) by lra. lra.
Qed.
Lemma ok2 x : 0 <= x <= 1 -> okpt 3 l2 [x; 0; 0].
Proof. intros H. split; [reflexivity|]. intros [|[|[|d]]] Hd Hn _; try lia; cbn in Hn |- *; [unfold lo, hi; cbn; lra|congruence|unfold lo, hi; cbn; lra]. Qed.
Lemma roots1 i : (i < 2)%nat -> compute_roots steep l1 [0; 0; 0] i = Ret [].
Proof.
  intros Hi. assert (T := tol_small). destruct sg_ne as [_ N]. unfold compute_roots, psi_at. destruct i as [|[|i]]; [..|lia]; cbn [nth_error l_psi bind]; f_equal; cbn [steep3 lin_oracles o_root_find l_dir]; unfold lin_roots; cbn [nth];
    (destruct (Req_EM_T (sg * 2000) 0); [contradiction|]); cbn [filter];
    match goal with |- (if (Rleb ?a ?r && Rleb ?r ?b)%bool then _ else _) = _ => change a with 0; change b with 1; set (x := r) end.
  - assert (Ex : x = 2 - default_tol). { unfold x. change (set_psi_bounds l1 pa [0; 0; 0]) with [0; 0; 0]. change (lin _ _ [0; 0; 0]) with (o_phi steep [0; 0; 0]). rewrite steep_phi. cbn [nth]. field. lra. } rewrite Ex. rewrite (proj2 (Rleb_false (2 - default_tol) 1)) by lra. rewrite Bool.andb_false_r. reflexivity.
  - assert (Ex : x = - default_tol). { unfold x. change (set_psi_bounds l1 pb [0; 0; 0]) with [0; 1; 0]. change (lin _ _ [0; 1; 0]) with (o_phi steep [0; 1; 0]). rewrite steep_phi. cbn [nth]. field. lra. } rewrite Ex. rewrite (proj2 (Rleb_false 0 (- default_tol))) by lra. reflexivity.
Qed.
Lemma iv1_ok iv : compute_all_intervals steep l1 [0; 0; 0] = Ret iv -> ri_roots (iv_ri iv) = [0; 1] /\ nth_error (iv_active iv) 0 = Some true.
Proof.
  intros E. assert (T := tol_small). destruct (all_geo steep 3 steep_sound l1 W1 eq_refl [0; 0; 0] iv eq_refl E) as (f & mid & s & Hf & Er & _ & PS & MV & _ & _ & Ha). cbn [l_count] in *.
  assert (Hf0 := Hf 0%nat ltac:(lia)). assert (Hf1 := Hf 1%nat ltac:(lia)). rewrite roots1 in Hf0, Hf1 by lia. injection Hf0 as E0. injection Hf1 as E1. unfold tagged in PS. cbn [seq flat_map] in PS. rewrite <- E0, <- E1 in PS. cbn [map app] in PS. apply Permutation_sym, Permutation_nil in PS. subst s. inversion MV; subst mid.
  cbn [l_S] in Ha. split; [rewrite Er; reflexivity|]. change (map fst (full_list l1 [])) with [0; 1] in Ha. refine (active_conv steep 3 l1 W1 eq_refl _ [0; 0; 0] [0; 0; 0] _ 0 0 1 (same_refl 3 l1 [0; 0; 0] eq_refl) Ha eq_refl eq_refl _ _).
  - rewrite tol1 by (reflexivity || (cbn; lia)). rewrite Rminus_0_r, Rabs_R1. lra.
  - intros [|[|j]] Hj; cbn [l_count] in Hj; [..|lia]; (eexists; split; [reflexivity|]); replace (/ 2 * (0 + 1)) with (/ 2) by lra;
      match goal with |- sign_ok _ (o_phi steep ?x) => (change x with [/ 2; 0; 0] || change x with [/ 2; 1; 0]) end; rewrite steep_phi; cbn [steep3 lin_oracles o_signs ps_sign];
      destruct Cs as [[-> ->]|[-> ->]]; [rewrite (proj2 (Rltb_true _ _)) by lra|rewrite (proj2 (Rltb_false _ _)) by lra|rewrite (proj2 (Rltb_true _ _)) by lra|rewrite (proj2 (Rltb_false _ _)) by lra]; cbn [fst snd]; split; intros; lra || lia.
Qed.
Lemma ref_ok ref : compute_all_intervals steep l2 [/ 2; 0; 0] = Ret ref -> exists r', iv_ri ref = ent (full_list l2 [(r', 0%Z)]) /\ (St = false -> nth_error (iv_active ref) 1 = Some true).
Proof.
  intros E. assert (T := tol_small). destruct (all_geo steep 3 steep_sound l2 W2 eq_refl [/ 2; 0; 0] ref eq_refl E) as (f & mid & s & Hf & Er & _ & PS & MV & _ & _ & Ha). cbn [l_count l_S] in *. destruct sg_ne as [N _].
  assert (Hf0 := Hf 0%nat ltac:(lia)). assert (E0 : f 0%nat = [3 / 4 - default_tol / 2]).
  { unfold compute_roots, psi_at in Hf0. change (nth_error (l_psi l2) 0) with (Some p0) in Hf0. cbn [bind] in Hf0. injection Hf0 as <-. cbn [steep3 lin_oracles o_root_find l_dir]. unfold lin_roots. cbn [nth]. destruct (Req_EM_T (sg * 4000) 0); [contradiction|]. cbn [filter].
    match goal with |- (if (Rleb ?a ?r && Rleb ?r ?b)%bool then _ else _) = _ => change a with 0; change b with 1; set (x := r) end. assert (Ex : x = 3 / 4 - default_tol / 2). { unfold x. match goal with |- context [set_psi_bounds ?a ?b ?c] => change (set_psi_bounds a b c) with [/ 2; 0; 0] end. change (lin _ _ [/ 2; 0; 0]) with (o_phi steep [/ 2; 0; 0]). rewrite steep_phi. cbn [nth]. field. lra. }
    rewrite Ex. rewrite (proj2 (Rleb_true _ _)) by lra. rewrite (proj2 (Rleb_true _ _)) by lra. reflexivity. }
  unfold tagged in PS. cbn [seq flat_map] in PS. rewrite E0 in PS. cbn [map app] in PS. apply Permutation_sym, Permutation_length_1_inv in PS. subst s. inversion MV as [|a b c d [M1 M2] M3]; subst. inversion M3; subst. destruct b as [r' z]. cbn [fst snd] in *. change (Z.of_nat 0) with 0%Z in M1. subst z. exists r'. split; [exact Er|].
  intros ES. assert (Ha2 : active_loop steep l2 [0; r'; 1] [/ 2; 0; 0] = Ret (iv_active ref)) by (clear - Ha ES; revert Ha; rewrite ES; intros Ha; exact Ha). clear Ha. rename Ha2 into Ha. rewrite tol1 in M2 by (reflexivity || (cbn; lia)). assert (Hr : 1 / 2 < r' < 4 / 5) by (revert M2; unfold Rabs; destruct (Rcase_abs _); lra).
  refine (active_conv steep 3 l2 W2 eq_refl _ [/ 2; 0; 0] [/ 2; 0; 0] _ 1 r' 1 (same_refl 3 l2 [/ 2; 0; 0] eq_refl) Ha eq_refl eq_refl _ _).
  - rewrite tol1 by (reflexivity || (cbn; lia)). rewrite Rabs_pos_eq; lra.
  - intros [|j] Hj; cbn [l_count] in Hj; [|lia]. exists p0. split; [reflexivity|]. match goal with |- sign_ok _ (o_phi steep ?x) => change x with [/ 2; / 2 * (r' + 1); 0] end. rewrite steep_phi. cbn [ps_sign]. destruct Cs as [[_ Eq]|[-> _]]; [rewrite ES in Eq; discriminate|]. split; intros; [lra|lia].
Qed.
Lemma sim_ok ref r' iv : iv_ri ref = ent (full_list l2 [(r', 0%Z)]) -> compute_similar_intervals steep l2 ref [0; 0; 0] = Ret iv ->
  ri_roots (iv_ri iv) = (if St then [0] else [0; 0; 1]) /\ (St = false -> iv_active iv = iv_active ref).
Proof.
  intros Er E. assert (T := tol_small). destruct (similar_settled steep 3 U steep_sound steep_exact eq_refl l2 W2 eq_refl wU p0 inc eq_refl eq_refl mono2 ref r' [0; 0; 0] iv (ok2 0 ltac:(lra)) ltac:(cbn; lia) Er E) as (q & Iq & Kq & Eq & Ea & Sq).
  assert (q = 0).
  { unfold root_kind in Kq. change (line l2 p0 [0; 0; 0] (X0 l2)) with [0; 0; 0] in Kq. change (line l2 p0 [0; 0; 0] (X1 l2)) with [0; 1; 0] in Kq. change (line l2 p0 [0; 0; 0] q) with [0; q; 0] in Kq. rewrite !steep_phi in Kq. unfold settled in Sq. rewrite tol1 in Kq, Sq by (reflexivity || (cbn; lia)). change (X0 l2) with 0 in *. change (X1 l2) with 1 in *.
    destruct Kq as [Z|[[[->| ->] Hq]|(-> & _)]]; [|reflexivity| |reflexivity]; exfalso.
    - assert (Eq' : q = 1 - default_tol / 2) by (destruct Cs as [[-> _]|[-> _]]; lra). destruct Sq as [E0|[E0|[_ E0]]]; [lra|lra|]. rewrite Eq' in E0. revert E0. unfold Rabs. destruct (Rcase_abs _); lra.
    - revert Hq. destruct Cs as [[-> _]|[-> _]]; unfold Rabs; destruct (Rcase_abs _); lra. }
  subst q. rewrite Eq. cbn [l_S]. split; [destruct St; reflexivity|exact Ea].
Qed.
Lemma node_0 cheb : node01 cheb 2 0 = 0.
Proof. unfold node01. cbn. lra. Qed.
Lemma steep_insert evs refs' : construct steep 3 2 2 n_max_subdivs St [] [] (set_at (repeat true 3) 2 false) psi0 1 U = Ret (evs, refs') -> exists t p, In (Insert t p [0; 0; 0]) evs.
Proof.
  intros E. destruct (steep_construct evs refs' E) as (refs & es & E1 & H & ->). clear E. change [0%nat; 0%nat; 0%nat] with (tp_const 3 0%nat) in E1 at 1. change [0; 0; 0] with (repeat 0 3) in E1. destruct (refs_inv steep 3 l1 l2 eq_refl refs E1) as (iv1 & rs & EI & -> & r & -> & Hr). clear E1.
  change (repeat 0 3) with [0; 0; 0] in EI. destruct (iv1_ok iv1 EI) as [R1 A1]. cbn [process] in H. unfold compute_intervals at 1 in H. cbn [find_tid l_dim] in H. change (tid_eqb (tp_const 3 0%nat) [0%nat; 0%nat; 0%nat]) with true in H. cbn [Nat.eqb bind l_S] in H.
  assert (L1 : (0 < length (iv_active iv1))%nat) by (apply nth_error_Some; rewrite A1; discriminate).
  destruct (foreach_sub _ _ _ 0%nat H ltac:(apply in_seq; lia)) as (e1 & H1 & I1). clear H. rewrite R1 in H1. unfold M_Mesh.at_ in H1. rewrite A1 in H1. cbn [bind nth_error l_dir] in H1.
  destruct (foreach_sub _ _ _ 0%nat H1 ltac:(left; reflexivity)) as (e2 & H2 & I2). clear H1. rewrite node_0 in H2. replace (0 + (1 - 0) * 0) with 0 in H2 by ring. cbn [set_at] in H2. unfold compute_intervals in H2. cbn [l_dim Nat.eqb] in H2.
  apply bind_inv in H2 as (iv & E2 & H2). destruct (find_tid r [0%nat; 0%nat; 0%nat]) as [ref|] eqn:Ef; [|discriminate]. destruct (Hr _ _ Ef) as (i & x0 & x1 & Ei & _ & N0 & N1 & E3). cbn [l_dir] in *. cbn in Ei. injection Ei as <-. rewrite R1 in N0, N1. cbn [nth_error] in N0, N1. injection N0 as <-. injection N1 as <-.
  replace (set_at (repeat 0 3) 0 (/ 2 * (0 + 1))) with [/ 2; 0; 0] in E3 by (cbn; f_equal; lra). destruct (ref_ok ref E3) as (r' & Er & Ar). destruct (sim_ok ref r' iv Er E2) as [Q1 Q2]. rewrite Q1 in H2.
  assert (CS : St = true \/ St = false) by (clear; destruct St; auto). destruct CS as [ES|ES]; rewrite ES in H2.
  - injection H2 as <-. eexists _, _. right. apply I1, I2. left. reflexivity.
  - specialize (Ar ES). rewrite <- (Q2 ES) in Ar. assert (L2 : (1 < length (iv_active iv))%nat) by (apply nth_error_Some; rewrite Ar; discriminate). destruct (foreach_sub _ _ _ 1%nat H2 ltac:(apply in_seq; lia)) as (e3 & H3 & I3). clear H2. rewrite Ar in H3. cbn [bind nth_error] in H3.
    destruct (foreach_sub _ _ _ 0%nat H3 ltac:(left; reflexivity)) as (e4 & H4 & I4). clear H3. rewrite node_0 in H4. cbn [Nat.ltb Nat.leb] in H4. injection H4 as <-. eexists _, _. right. apply I1, I2, I3, I4. left. f_equal. cbn. repeat f_equal. lra.
Qed.
End Steep.
