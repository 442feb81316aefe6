(** Regions in space: a function for which a part of the region is lost. *)
From Coq Require Import Reals List Lia Lra Permutation Sorted Arith ZArith.
From Verif Require Import M_Reparam M_General S_General S_Geo S_Affine S_Mesh S_Roots L_Real L_BBox L_Point L_TensorNat L_Mesh L_Mesh5 L_Roots P_Roots L_General L_General2 L_General3 L_General4 L_General5 L_General6 L_General7 L_Reparam L_Reparam3 L_Geo1 L_Geo2 L_Geo3 L_Geo4 L_Geo5 L_Geo6 L_Geo7 P_General L_Saddle.
Import ListNotations.
Local Close Scope Z_scope. Local Close Scope nat_scope. Local Open Scope R_scope.

(** The function 8 - 9x + 10y - z (1 + 20y), with the exact gradient in boxes, exact roots, and no information from interval arithmetic on the values. *)
Definition reg (p : list R) : R := 8 - 9 * nth 0 p 0 + 10 * nth 1 p 0 - nth 2 p 0 * (1 + 20 * nth 1 p 0).
Definition reg_roots (pt : list R) (k : nat) (a b : R) : list R :=
  let A := reg (set_at pt k 0) in let B := reg (set_at pt k 1) - A in
  if Req_EM_T B 0 then [] else filter (fun r => (Rleb a r && Rleb r b)%bool) [- A / B].
Definition reg_coefs (k : nat) : R * list R :=
  match k with 0%nat => (-9, [0; 0; 0]) | 1%nat => (10, [0; 0; -20]) | 2%nat => (-1, [0; -20; 0]) | _ => (0, [0; 0; 0]) end.
Definition reg_grad (free : list bool) (b : bbox) (p : psi_code) (k : nat) : R * R * bool :=
  let c d := if nth d free true then midpoint b d else side_of b (nth d (ps_side p) 0%nat) d in
  let h d := if nth d free true then / 2 * extent b d else 0 in
  let a d := nth d (snd (reg_coefs k)) 0 in
  let alpha := fst (reg_coefs k) + a 0%nat * c 0%nat + a 1%nat * c 1%nat + a 2%nat * c 2%nat in
  let dev := Rabs (a 0%nat) * h 0%nat + Rabs (a 1%nat) * h 1%nat + Rabs (a 2%nat) * h 2%nat in
  (alpha, dev, Rltb dev (Rabs alpha)).
Definition reg_oracles : oracles :=
  mk_oracles reg (fun _ _ _ => (0, false)) reg_grad algoim_signs (fun pt k a b _ => reg_roots pt k a b) L_Roots.rsort_ins (fun i n => INR i / INR (n - 1)) (mk_psi [0; 0; 0]%nat 0) [0; 0; 0].

Lemma reg_affine pt k t : length pt = 3%nat -> reg (set_at pt k t) = reg (set_at pt k 0) + (reg (set_at pt k 1) - reg (set_at pt k 0)) * t.
Proof. intros H. destruct pt as [|x [|y [|z [|]]]]; cbn in H; try lia. destruct k as [|[|[|k]]]; unfold reg; cbn [set_at nth]; ring. Qed.
Lemma reg_slope pt k s t : length pt = 3%nat -> (k < 3)%nat -> reg (set_at pt k t) - reg (set_at pt k s) =
  (fst (reg_coefs k) + nth 0 (snd (reg_coefs k)) 0 * nth 0 pt 0 + nth 1 (snd (reg_coefs k)) 0 * nth 1 pt 0 + nth 2 (snd (reg_coefs k)) 0 * nth 2 pt 0) * (t - s).
Proof. intros H Hk. destruct pt as [|x [|y [|z [|]]]]; cbn in H; try lia. destruct k as [|[|[|k]]]; try lia; unfold reg; cbn [set_at nth reg_coefs fst snd]; ring. Qed.
Lemma reg_sound : sound reg_oracles 3.
Proof.
  constructor; [|exact L_Roots.rsort_ins_ok| |reflexivity].
  - intros pt d x0 x1 flag _. apply Forall_forall. intros r Hr. cbn [reg_oracles o_root_find] in Hr. unfold reg_roots in Hr. cbv zeta in Hr. destruct (Req_EM_T _ _); [destruct Hr|]. apply filter_In in Hr as [_ H]. apply andb_prop in H as [H1 H2]. apply Rleb_true in H1, H2. split; assumption.
  - exact (s_cheb _ _ (lin_sound [0; 0; 0] 0)).
Qed.
Lemma reg_grad_ok free b p k x s t dom : length (bmin dom) = 3%nat -> within b dom -> (k < 3)%nat -> snd (reg_grad free b p k) = true ->
  on_face free b p (set_at x k s) -> s < t -> 0 < fst (fst (reg_grad free b p k)) * (reg (set_at x k t) - reg (set_at x k s)).
Proof.
  intros Hd (W1 & W2 & W3) Hk Hu [Hb Hf] Hst. assert (Lb : length (bmin b) = 3%nat) by congruence. assert (Lx := in_cube_len b x k s Lb Hb). destruct Hb as [_ Hb]. rewrite set_at_length, Lx in Hb, Hf.
  set (c d := if nth d free true then midpoint b d else side_of b (nth d (ps_side p) 0%nat) d). set (h d := if nth d free true then / 2 * extent b d else 0).
  assert (N : forall d, (d < 3)%nat -> d <> k -> Rabs (nth d x 0 - c d) <= h d).
  { intros d Hd3 Hn. specialize (Hb d Hd3). specialize (Hf d Hd3). rewrite set_at_nth in Hb, Hf. destruct (Nat.eqb_spec k d); [congruence|]. unfold c, h. destruct (nth d free true).
    - unfold midpoint, extent, hi, lo. unfold Rabs. destruct (Rcase_abs _); lra.
    - rewrite (Hf eq_refl). unfold side_coord, side_of, lo, hi. destruct (_ =? 0)%nat; rewrite Rminus_diag_eq by reflexivity; rewrite Rabs_R0; lra. }
  rewrite reg_slope by assumption. set (a d := nth d (snd (reg_coefs k)) 0) in *.
  change (snd (reg_grad free b p k)) with (Rltb (Rabs (a 0%nat) * h 0%nat + Rabs (a 1%nat) * h 1%nat + Rabs (a 2%nat) * h 2%nat) (Rabs (fst (reg_coefs k) + a 0%nat * c 0%nat + a 1%nat * c 1%nat + a 2%nat * c 2%nat))) in Hu.
  change (fst (fst (reg_grad free b p k))) with (fst (reg_coefs k) + a 0%nat * c 0%nat + a 1%nat * c 1%nat + a 2%nat * c 2%nat).
  change (nth 0 (snd (reg_coefs k)) 0) with (a 0%nat). change (nth 1 (snd (reg_coefs k)) 0) with (a 1%nat). change (nth 2 (snd (reg_coefs k)) 0) with (a 2%nat).
  assert (Ak : a k = 0) by (unfold a; destruct k as [|[|[|k]]]; [reflexivity..|lia]).
  assert (M : forall d, (d < 3)%nat -> Rabs (a d * nth d x 0 - a d * c d) <= Rabs (a d) * h d).
  { intros d Hd3. destruct (Nat.eq_dec d k) as [->|Hn]; [rewrite Ak, !Rmult_0_l, Rminus_0_r, Rabs_R0; lra|]. apply near_mul, N; assumption. }
  apply Rltb_true in Hu. assert (M0 := M 0%nat ltac:(lia)). assert (M1 := M 1%nat ltac:(lia)). assert (M2 := M 2%nat ltac:(lia)).
  set (u0 := a 0%nat * nth 0 x 0) in *. set (u1 := a 1%nat * nth 1 x 0) in *. set (u2 := a 2%nat * nth 2 x 0) in *. set (v0 := a 0%nat * c 0%nat) in *. set (v1 := a 1%nat * c 1%nat) in *. set (v2 := a 2%nat * c 2%nat) in *.
  set (w0 := Rabs (a 0%nat) * h 0%nat) in *. set (w1 := Rabs (a 1%nat) * h 1%nat) in *. set (w2 := Rabs (a 2%nat) * h 2%nat) in *. set (F := fst (reg_coefs k)) in *. clearbody u0 u1 u2 v0 v1 v2 w0 w1 w2 F.
  assert (0 < (F + v0 + v1 + v2) * (F + u0 + u1 + u2)). { revert M0 M1 M2 Hu. unfold Rabs. destruct (Rcase_abs (u0 - v0)), (Rcase_abs (u1 - v1)), (Rcase_abs (u2 - v2)), (Rcase_abs (F + v0 + v1 + v2)); intros; nra. }
  rewrite <- Rmult_assoc. apply Rmult_lt_0_compat; lra.
Qed.
Lemma reg_exact dom : length (bmin dom) = 3%nat -> exact reg_oracles dom.
Proof.
  intros Hd. constructor; cbn [reg_oracles o_phi o_value o_grad o_signs o_root_find fst snd].
  - intros pt k x0 x1 _ r H0 _ Hr. assert (Lp := in_cube_len dom pt k _ Hd H0). unfold reg_roots in Hr. cbv zeta in Hr. destruct (Req_EM_T _ 0) as [|Hn]; [destruct Hr|]. apply filter_In in Hr as [[<-|[]] _]. rewrite reg_affine by exact Lp. field. exact Hn.
  - intros pt k x0 x1 _. unfold reg_roots. cbv zeta. destruct (Req_EM_T _ 0); [constructor|]. apply NoDup_filter. constructor; [intros []|constructor].
  - intros pt k x0 x1 _ s t H0 _ Hs Ht Hz Hne. assert (Lp := in_cube_len dom pt k _ Hd H0). unfold reg_roots. cbv zeta. rewrite (reg_affine pt k s Lp), (reg_affine pt k t Lp) in Hz, Hne.
    set (A := reg (set_at pt k 0)) in *. set (B := reg (set_at pt k 1) - A) in *. clearbody A B. destruct (Req_EM_T B 0) as [E|Hn]; [rewrite E in Hne; lra|]. set (r := - A / B). assert (Er : A = - (B * r)) by (unfold r; field; exact Hn). clearbody r. subst A.
    assert (Rmin s t <= r <= Rmax s t). { unfold Rmin, Rmax. destruct (Rle_dec s t); destruct (Rle_or_lt 0 B); nra. }
    assert (x0 <= r <= x1) by (unfold Rmin, Rmax in *; destruct (Rle_dec s t); lra). exists r. split; [|assumption]. apply filter_In. split; [left; reflexivity|]. apply andb_true_intro. rewrite !Rleb_true. assumption.
  - intros free bx p x _ H. discriminate.
  - intros free bx p k x s t Wb Hf Hg H0 _ Hst. destruct (Nat.lt_ge_cases k 3) as [Hk|Hk]; [eapply reg_grad_ok; eassumption|]. exfalso. revert Hg. unfold reg_grad. cbv zeta. replace (reg_coefs k) with (0, [0; 0; 0]) by (destruct k as [|[|[|k]]]; [lia..|reflexivity]). cbn [fst snd nth snd]. intros Hg. apply Rltb_true in Hg. revert Hg. rewrite !Rmult_0_l, Rabs_R0, !Rplus_0_l, !Rmult_0_l, Rabs_R0. lra.
  - reflexivity.
  - reflexivity.
Qed.
Lemma reg_moderate : moderate (o_phi reg_oracles) cube3 1.
Proof.
  split; [lra|]. split; [intros [|[|[|d]]] Hd; cbn in Hd; try lia; cbn [cube3 bmin bmax nth]; lra|]. exists 27. split; [lra|]. split; [lra|]. intros x d s t H0 H1. assert (Lp := in_cube_len cube3 x d s eq_refl H0). cbn [reg_oracles o_phi].
  destruct (Nat.lt_ge_cases d 3) as [Hk|Hk]; [|rewrite !set_at_out by lia; rewrite Rminus_diag_eq, Rabs_R0 by reflexivity; apply Rmult_le_pos; [lra|apply Rabs_pos]]. rewrite reg_slope by assumption. rewrite Rabs_mult. apply Rmult_le_compat_r; [apply Rabs_pos|].
  destruct H0 as [_ H0]. rewrite set_at_length, Lp in H0. assert (A := H0 0%nat ltac:(lia)). assert (B := H0 1%nat ltac:(lia)). assert (C := H0 2%nat ltac:(lia)). rewrite set_at_nth in A, B, C. cbn [cube3 bmin bmax nth] in A, B, C.
  destruct d as [|[|[|d]]]; try lia; cbn [Nat.eqb reg_coefs fst snd nth] in *; unfold Rabs; destruct (Rcase_abs _); lra.
Qed.

(** ** The construction *)
Local Notation O := reg_oracles.
Local Notation psi0 := (set_at (repeat (o_psi O) (n_facets 3)) 0 (mk_psi (tp_const 3 0%nat) (-1))).
Local Notation p0 := (mk_psi [0; 0; 0]%nat (-1)).
Local Notation q0 := (mk_psi [0; 0; 0]%nat 0).
Local Notation q1 := (mk_psi [0; 0; 1]%nat (-1)).
Local Notation dd := (mk_psi [0; 0; 0]%nat 0).
Local Notation l1 := (mk_obj 1 false [true; false; false] [mk_psi [0; 0; 0]%nat 0; mk_psi [0; 1; 0]%nat 0; mk_psi [0; 0; 1]%nat (-1); mk_psi [0; 1; 1]%nat 0] 4 cube3 0).
Local Notation l2 := (mk_obj 2 false [true; true; false] [q0; q1; dd; dd] 2 cube3 1).
Local Notation l3 := (mk_obj 3 false [true; true; true] [p0; dd; dd; dd] 1 cube3 2).
Ltac grads a e := cbn [reg_oracles o_grad]; unfold reg_grad, midpoint, extent, side_of, lo, hi; cbn [reg_coefs fst snd nth cube3 bmin bmax ps_side Nat.eqb];
  rewrite ?Rabs_R0; replace (Rabs (-20)) with 20 by (symmetry; apply (abs_neg 20); lra);
  match goal with |- (?x, ?y, Rltb ?y' ?z) = _ => replace y' with e by lra; replace y with e by lra; replace x with a by lra end.
Lemma ab9 : Rabs (-9) = 9.
Proof. apply (abs_neg 9). lra. Qed.
Lemma ab11 : Rabs (-11) = 11.
Proof. apply (abs_neg 11). lra. Qed.
Lemma g30 : o_grad O [true; true; true] cube3 p0 0 = (-9, 0, true).
Proof. grads (-9) 0. rewrite ab9. rewrite (proj2 (Rltb_true _ _)) by lra. reflexivity. Qed.
Lemma g31 : o_grad O [true; true; true] cube3 p0 1 = (0, 10, false).
Proof. grads 0 10. rewrite Rabs_R0. rewrite (proj2 (Rltb_false _ _)) by lra. reflexivity. Qed.
Lemma g32 : o_grad O [true; true; true] cube3 p0 2 = (-11, 10, true).
Proof. grads (-11) 10. rewrite ab11. rewrite (proj2 (Rltb_true _ _)) by lra. reflexivity. Qed.
Lemma g20 : o_grad O [true; true; false] cube3 q0 0 = (-9, 0, true).
Proof. grads (-9) 0. rewrite ab9. rewrite (proj2 (Rltb_true _ _)) by lra. reflexivity. Qed.
Lemma g21 : o_grad O [true; true; false] cube3 q0 1 = (10, 0, true).
Proof. grads 10 0. rewrite Rabs_pos_eq by lra. rewrite (proj2 (Rltb_true _ _)) by lra. reflexivity. Qed.
Lemma g21' : o_grad O [true; true; false] cube3 q1 1 = (-10, 0, true).
Proof. grads (-10) 0. replace (Rabs (-10)) with 10 by (symmetry; apply (abs_neg 10); lra). rewrite (proj2 (Rltb_true _ _)) by lra. reflexivity. Qed.
Lemma hstep free p d a e u m o : (d < 3)%nat -> o_grad O free cube3 p d = (a, e, u) -> nth d free false = true -> 1001 / 1000 * e < Rabs a -> m < Rabs a ->
  height_step O free cube3 p (m, o) d = (Rabs a * 1, Some d).
Proof.
  intros Hd E Hf H1 H2. unfold height_step. rewrite E, Hf. cbn [fst snd andb]. rewrite (proj2 (Rltb_true _ _)) by exact H1. assert (Ee : extent cube3 d = 1) by (unfold extent, hi, lo; destruct d as [|[|[|d]]]; cbn; lra || lia). rewrite Ee. rewrite (proj2 (Rltb_true _ _)) by lra. reflexivity.
Qed.
Lemma hskip free p d a e u acc : o_grad O free cube3 p d = (a, e, u) -> nth d free false = false \/ Rabs a <= 1001 / 1000 * e -> height_step O free cube3 p acc d = acc.
Proof. intros E H. unfold height_step. rewrite E. cbn [fst snd]. destruct H as [H|H]; [rewrite H; reflexivity|]. rewrite (proj2 (Rltb_false _ _)) by exact H. rewrite Bool.andb_false_r. reflexivity. Qed.
Lemma hd3 : height_direction O 3 [true; true; true] cube3 p0 = Some 2%nat.
Proof.
  unfold height_direction. cbn [seq fold_left]. rewrite (hstep _ _ 0 _ _ _ _ _ ltac:(lia) g30 eq_refl) by (rewrite ab9; lra). rewrite (hskip _ _ 1 _ _ _ _ g31) by (right; rewrite Rabs_R0; lra).
  rewrite (hstep _ _ 2 _ _ _ _ _ ltac:(lia) g32 eq_refl) by (rewrite ?ab9, ?ab11; lra). reflexivity.
Qed.
Lemma hd2 : height_direction O 3 [true; true; false] cube3 q0 = Some 1%nat.
Proof.
  unfold height_direction. cbn [seq fold_left]. rewrite (hstep _ _ 0 _ _ _ _ _ ltac:(lia) g20 eq_refl) by (rewrite ab9; lra).
  rewrite (hstep _ _ 1 _ _ _ _ _ ltac:(lia) g21 eq_refl) by (rewrite ?ab9, ?(Rabs_pos_eq 10); lra). destruct (o_grad O [true; true; false] cube3 q0 2) as [[a e] u] eqn:Eg. rewrite (hskip _ _ 2 _ _ _ _ Eg) by (left; reflexivity). reflexivity.
Qed.
Lemma g3 : snd (o_grad O [true; true; true] cube3 p0 2) = true /\ Rltb 0 (fst (fst (o_grad O [true; true; true] cube3 p0 2))) = false.
Proof. rewrite g32. cbn [fst snd]. split; [reflexivity|apply Rltb_false; lra]. Qed.
Lemma g2 : snd (o_grad O [true; true; false] cube3 q0 1) = true /\ Rltb 0 (fst (fst (o_grad O [true; true; false] cube3 q0 1))) = true /\ snd (o_grad O [true; true; false] cube3 q1 1) = true.
Proof. rewrite g21, g21'. cbn [fst snd]. split; [reflexivity|]. split; [apply Rltb_true; lra|reflexivity]. Qed.
Lemma reg_construct order evs refs' : construct O 3 order 3 n_max_subdivs false [] [] (repeat true 3) psi0 1 cube3 = Ret (evs, refs') ->
  exists refs es, compute_ref_intervals O [l1; l2; l3] [[]; []; []] [0; 0; 0] [0; 0; 0]%nat = Ret refs /\ process O 3 order [l1; l2; l3] refs [0; 0; 0] [0; 0; 0]%nat [0; 0; 0]%nat = Ret es /\ evs = Clear :: es.
Proof.
  change (repeat true 3) with [true; true; true]. change psi0 with [p0; dd; dd; dd]. rewrite construct_S. unfold prune. cbn [prune_loop Nat.ltb Nat.leb nth_error reg_oracles o_value snd bind negb Nat.eqb]. fold O. unfold psi_at. cbn [nth_error bind]. rewrite hd3.
  cbn [reduce_loop]. unfold psi_at. cbn [nth_error bind]. destruct g3 as [G1 G2]. rewrite G1, G2. change (length (repeat (o_psi O) (n_facets 3))) with 4%nat. cbn [Nat.add Nat.ltb Nat.leb]. 
  change (repeat (o_psi O) (n_facets 3)) with [dd; dd; dd; dd]. change (o_signs O) with algoim_signs. cbn [bind ps_side ps_sign algoim_signs set_at fst snd Z.eqb Pos.eqb]. intros E. apply bind_inv in E as ([es rs] & E & E2). injection E2 as <- <-.
  rewrite construct_S in E. unfold prune in E. cbn [prune_loop Nat.ltb Nat.leb nth_error reg_oracles o_value snd bind negb Nat.eqb] in E. fold O in E. unfold psi_at in E. cbn [nth_error bind] in E. rewrite hd2 in E.
  cbn [reduce_loop] in E. unfold psi_at in E. cbn [nth_error bind] in E. destruct g2 as (G3 & G4 & G5). rewrite G3, G4, G5 in E. change (repeat (o_psi O) (n_facets 3)) with [dd; dd; dd; dd] in E. change (o_signs O) with algoim_signs in E.
  cbn [length set_at Nat.add Nat.ltb Nat.leb bind ps_side ps_sign algoim_signs fst snd Z.eqb Pos.eqb] in E. apply bind_inv in E as ([es1 rs1] & E & E2). injection E2 as <- <-.
  rewrite construct_1 in E. cbn [filter nth seq rev app set_at] in E. cbv zeta in E. apply bind_inv in E as (refs & E1 & E). apply bind_inv in E as (evs0 & E2 & E). injection E as <- <-. exists refs, evs0. split; [exact E1|]. split; [exact E2|reflexivity].
Qed.
Lemma W1s : wf_obj 3 l1.
Proof. assert (T := tol_small). constructor; cbn; try lia; try discriminate; try reflexivity. unfold extent, hi, lo. cbn. lra. Qed.
Lemma tol1s : compute_tolerance l1 = default_tol.
Proof. unfold compute_tolerance, tol_update, extent, lo, hi. assert (T := tol_small). cbn [cube3 bmin bmax nth l_box l_dir]. apply Rmax_left; lra. Qed.
Lemma reg_roots_1 i : (i < 4)%nat -> exists rs, compute_roots O l1 [0; 0; 0] i = Ret rs /\ Forall (fun r => 7 / 9 <= r) rs /\ (i = 2%nat -> rs = [7 / 9]).
Proof.
  intros Hi. unfold compute_roots, psi_at. destruct i as [|[|[|[|i]]]]; [..|lia]; cbn [nth_error l_psi bind]; (eexists; split; [reflexivity|]); cbn [reg_oracles o_root_find l_dir]; unfold reg_roots; cbv zeta;
    match goal with |- context [set_psi_bounds ?l ?p ?x] => let y := eval cbn in (set_psi_bounds l p x) in change (set_psi_bounds l p x) with y end; unfold reg, side_of, lo, hi; cbn [set_at nth cube3 bmin bmax l_box Nat.eqb];
    (destruct (Req_EM_T _ _); [exfalso; lra|]);
    match goal with |- context [filter _ [?r]] => set (x := r) end; cbn [filter].
  - assert (Ex : x = 8 / 9) by (unfold x; field). clearbody x. subst x. destruct (_ && _)%bool; (split; [repeat constructor; lra|discriminate]).
  - assert (Ex : x = 2) by (unfold x; field). clearbody x. subst x. rewrite (proj2 (Rleb_false 2 1)) by lra. rewrite Bool.andb_false_r. split; [constructor|discriminate].
  - assert (Ex : x = 7 / 9) by (unfold x; field). clearbody x. subst x. rewrite (proj2 (Rleb_true _ _)) by lra. rewrite (proj2 (Rleb_true _ _)) by lra. split; [repeat constructor; lra|reflexivity].
  - assert (Ex : x = - 1 / 3) by (unfold x; field). clearbody x. subst x. rewrite (proj2 (Rleb_false 0 (- 1 / 3))) by lra. split; [constructor|discriminate].
Qed.
Lemma reg_active iv : compute_all_intervals O l1 [0; 0; 0] = Ret iv -> forall i x0 x1, nth_error (iv_active iv) i = Some true -> nth_error (ri_roots (iv_ri iv)) i = Some x0 -> nth_error (ri_roots (iv_ri iv)) (S i) = Some x1 -> 1 / 2 <= x0 <= x1.
Proof.
  intros E i x0 x1 Ha N0 N1. assert (T := tol_small). destruct (all_geo O 3 reg_sound l1 W1s eq_refl [0; 0; 0] iv eq_refl E) as (f & mid & s & Hf & Er & HS & PS & MV & _ & _ & Hl). cbn [l_S l_count] in *. rewrite tol1s in MV. rewrite Er in N0, N1. cbn [ent ri_roots] in N0, N1.
  destruct (active_true O 3 l1 W1s eq_refl _ _ [0; 0; 0] _ i (same_refl 3 l1 [0; 0; 0] eq_refl) Hl Ha) as (y0 & y1 & M0 & M1 & _ & Sg). rewrite N0 in M0. rewrite N1 in M1. injection M0 as <-. injection M1 as <-.
  destruct (Sg 2%nat ltac:(cbn; lia)) as (p & Ep & Sp). cbn [l_psi nth_error] in Ep. injection Ep as <-. cbn [ps_sign] in Sp. apply sign_nonpos in Sp.
  match type of Sp with o_phi O ?x <= 0 => change x with [/ 2 * (x0 + x1); 0; 1] in Sp end. cbn [reg_oracles o_phi] in Sp. unfold reg in Sp. cbn [nth] in Sp.
  destruct (sorted_gap _ _ _ _ HS N0 N1) as [Hle Hgap]. split; [|exact Hle].
  assert (In7 : forall e, In e s -> 7 / 9 <= fst e). { intros e He. apply (Permutation_in _ PS) in He. unfold tagged in He. apply in_flat_map in He as (n & Hn & He). apply in_seq in Hn. apply in_map_iff in He as (r & <- & Hr). cbn [fst]. destruct (reg_roots_1 n ltac:(lia)) as (rs & Ers & Fr & _). rewrite Hf in Ers by lia. injection Ers as <-. rewrite Forall_forall in Fr. apply Fr, Hr. }
  assert (Hm : forall e, In e mid -> 1 / 2 <= fst e). { intros e He. clear - MV In7 He T. induction MV as [|a b s mid [_ Hd] _ IH]; [destruct He|]. destruct He as [<-|He]; [|apply IH; [intros e' H'; apply In7; right; exact H'|exact He]]. specialize (In7 a ltac:(left; reflexivity)). revert Hd. unfold Rabs. destruct (Rcase_abs _); lra. }
  assert (Ex : exists r, In r (map fst (full_list l1 mid)) /\ 1 / 2 <= r <= 4 / 5).
  { assert (Hin : In (7 / 9, 2%Z) s). { apply (Permutation_in _ (Permutation_sym PS)). unfold tagged. apply in_flat_map. exists 2%nat. split; [apply in_seq; lia|]. destruct (reg_roots_1 2 ltac:(lia)) as (rs & Ers & _ & Eq). rewrite Hf in Ers by lia. injection Ers as <-. rewrite (Eq eq_refl). left. reflexivity. }
    destruct (forall2_in _ _ _ _ MV Hin) as ([r z] & Hr & _ & Hd). cbn [fst] in Hd. exists r. split; [|revert Hd; unfold Rabs; destruct (Rcase_abs _); lra]. apply in_map_iff. exists (r, z). split; [reflexivity|]. right. apply in_or_app. left. exact Hr. }
  destruct Ex as (r & Hr & Hr2). destruct (Hgap r Hr) as [H|H]; [|assert (Hx : In x0 (map fst (full_list l1 mid))) by (eapply nth_error_In; exact N0); unfold full_list in Hx; cbn [map fst] in Hx; rewrite map_app in Hx; destruct Hx as [Hx|Hx]].
  - assert (Hx : In x0 (map fst (full_list l1 mid))) by (eapply nth_error_In; exact N0). apply in_map_iff in Hx as (e & <- & [<-|He]); [change (fst (X0 l1, (-1)%Z)) with 0 in H; lra|]. apply in_app_or in He as [He|[<-|[]]]; [apply Hm, He|change (1 / 2 <= 1); lra].
  - change (X0 l1) with 0 in Hx. lra.
  - apply in_app_or in Hx as [Hx|[<-|[]]]; [|change (1 / 2 <= 1); lra]. apply in_map_iff in Hx as (e & <- & He). apply Hm, He.
Qed.
Lemma reg_events order evs refs' : (2 <= order)%nat -> construct O 3 order 3 n_max_subdivs false [] [] (repeat true 3) psi0 1 cube3 = Ret (evs, refs') -> Forall (ev_ok (fun x => 1 / 2 <= nth 0 x 0) (fun _ => False)) evs.
Proof.
  intros Ho E. apply reg_construct in E as (refs & es & E1 & H & ->). constructor; [exact Logic.I|]. apply Forall_forall. intros e He.
  cbn [compute_ref_intervals] in E1. apply bind_inv in E1 as (iv1 & EI & E1). apply bind_inv in E1 as (rs & _ & E1). cbn [emplace find_tid] in E1. injection E1 as <-.
  cbn [process] in H. unfold compute_intervals at 1 in H. cbn [find_tid l_dim] in H. change (tid_eqb [0; 0; 0]%nat [0; 0; 0]%nat) with true in H. cbn [Nat.eqb bind l_S] in H.
  destruct (foreach_in _ _ _ _ H He) as (i & e1 & _ & H1 & He1). clear H He. apply bind_inv in H1 as (a & Ha & H1). apply at_inv in Ha. destruct a; [|injection H1 as <-; destruct He1].
  apply bind_inv in H1 as (x0 & N0 & H1). apply bind_inv in H1 as (x1 & N1 & H1). apply at_inv in N0, N1. destruct (foreach_in _ _ _ _ H1 He1) as (jn & e2 & Hj & H2 & He2). clear H1 He1 e1. apply in_seq in Hj.
  set (X := x0 + (x1 - x0) * node01 (o_cheb O) order jn) in *. assert (HX : 1 / 2 <= X). { destruct (reg_active iv1 EI i x0 x1 Ha N0 N1) as [A B]. assert (Hnode := node_in O 3 order reg_sound Ho jn ltac:(lia)). unfold X. nra. }
  clearbody X. destruct rs as [|r2 [|r3 rs]]; [injection H2 as <-; destruct He2|..].
  - apply bind_inv in H2 as (iv2 & _ & H2). cbn [l_S] in H2. destruct (foreach_in _ _ _ _ H2 He2) as (i2 & e3 & _ & H3 & He3). apply bind_inv in H3 as (a2 & _ & H3). destruct a2; [|injection H3 as <-; destruct He3].
    apply bind_inv in H3 as (y0 & _ & H3). apply bind_inv in H3 as (y1 & _ & H3). destruct (foreach_in _ _ _ _ H3 He3) as (j2 & e4 & _ & H4 & He4). injection H4 as <-. destruct He4.
  - apply bind_inv in H2 as (iv2 & _ & H2). cbn [l_S] in H2. destruct (foreach_in _ _ _ _ H2 He2) as (i2 & e3 & _ & H3 & He3). apply bind_inv in H3 as (a2 & _ & H3). destruct a2; [|injection H3 as <-; destruct He3].
    apply bind_inv in H3 as (y0 & _ & H3). apply bind_inv in H3 as (y1 & _ & H3). destruct (foreach_in _ _ _ _ H3 He3) as (j2 & e4 & _ & H4 & He4). clear H3 He3. apply bind_inv in H4 as (iv3 & _ & H4). cbn [l_S] in H4.
    destruct (foreach_in _ _ _ _ H4 He4) as (i3 & e5 & _ & H5 & He5). apply bind_inv in H5 as (a3 & _ & H5). destruct a3; [|injection H5 as <-; destruct He5]. apply bind_inv in H5 as (z0 & _ & H5). apply bind_inv in H5 as (z1 & _ & H5). destruct (foreach_in _ _ _ _ H5 He5) as (j3 & e6 & _ & H6 & He6).
    cbn [l_dim Nat.ltb Nat.leb] in H6. injection H6 as <-. destruct He6 as [<-|[]]. cbn [ev_ok l_dir set_at nth]. exact HX.
Qed.
