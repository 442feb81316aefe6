(** Position of the points: the two objects of the plane. *)
From Coq Require Import Reals List Lia Lra Permutation Sorted Arith ZArith.
From Verif Require Import M_General S_General S_Geo S_Mesh S_Roots L_Real L_BBox L_Point L_TensorNat L_Mesh L_Roots P_Roots L_General L_General2 L_General3 L_General4 L_Geo1 L_Geo2.
Import ListNotations.
Local Close Scope Z_scope. Local Close Scope nat_scope. Local Open Scope R_scope.

Lemma sign_nonpos v : sign_ok (-1) v -> v <= 0.
Proof. intros [H _]. destruct (Rle_or_lt v 0) as [H0|H0]; [exact H0|]. specialize (H H0). exfalso; lia. Qed.
Lemma sign_pos v : sign_ok 1 v -> 0 < v.
Proof. intros [_ H]. destruct (Rle_or_lt v 0) as [H0|H0]; [|exact H0]. specialize (H H0). exfalso; lia. Qed.

Section Planar.
Variables (O : oracles) (range order : nat) (dom : bbox).
Hypothesis HO : sound O range.
Hypothesis HX : exact O dom.
Hypothesis Hdom : length (bmin dom) = range.
Hypothesis Hord : (2 <= order)%nat.
Variables (l1 l2 : obj) (p0 pa pb : psi_code) (inc : bool) (L : R).
Hypothesis W1 : wf_obj range l1.
Hypothesis W2 : wf_obj range l2.
Hypothesis D1 : l_dim l1 = 1%nat.
Hypothesis D2 : l_dim l2 <> 1%nat.
Hypothesis S1 : l_S l1 = false.
Hypothesis C1 : l_count l1 = 2%nat.
Hypothesis C2 : l_count l2 = 1%nat.
Hypothesis Box : l_box l1 = l_box l2.
Hypothesis Free : l_free l1 = set_at (l_free l2) (l_dir l2) false.
Hypothesis F1 : nth (l_dir l1) (l_free l1) true = true.
Hypothesis F2 : nth (l_dir l2) (l_free l2) true = true.
Hypothesis Only : forall d, (d < range)%nat -> nth d (l_free l1) true = true -> d = l_dir l1.
Hypothesis Ea : nth_error (l_psi l1) 0 = Some pa.
Hypothesis Eb : nth_error (l_psi l1) 1 = Some pb.
Hypothesis E0 : nth_error (l_psi l2) 0 = Some p0.
Hypothesis Sa : ps_side pa = set_at (ps_side p0) (l_dir l2) 0%nat.
Hypothesis Sb : ps_side pb = set_at (ps_side p0) (l_dir l2) 1%nat.
Hypothesis Ls : length (ps_side p0) = range.
Hypothesis Sg0 : ps_sign p0 = (-1)%Z.
Hypothesis Sg : (ps_sign pa, ps_sign pb) = (if l_S l2 then (if inc then (-1, 1) else (1, -1)) else (if inc then (-1, 0) else (0, -1)))%Z.
Hypothesis Hw : within (l_box l2) dom.
Notation j := (l_dir l1).
Notation k := (l_dir l2).
Notation f := (fun pt t => o_phi O (line l2 p0 pt t)).
Notation pt0 := (repeat 0 range).
Notation pt := (fun X => set_at pt0 j X).
Notation tol1 := (compute_tolerance l1).
Notation tol2 := (compute_tolerance l2).
Hypothesis Hmono : forall pt s t, okpt range l2 pt -> inside l2 s -> inside l2 t -> s < t -> if inc then f pt s < f pt t else f pt t < f pt s.
Hypothesis Hbig : 2 * tol2 < X1 l2 - X0 l2.
Hypothesis HL : 0 <= L.
Hypothesis Lip : lipschitz (o_phi O) L dom.
Hypothesis Lt1 : L * tol1 <= 1000 * tol2.
Hypothesis Lt2 : L * tol2 <= 1000 * tol2.

Lemma jk : j <> k.
Proof. intros E. rewrite Free, E, set_at_nth, Nat.eqb_refl in F1. pose proof (wf_dir _ _ W2). rewrite (wf_free _ _ W2) in F1. destruct (Nat.ltb_spec k range); [discriminate|lia]. Qed.
Lemma Hw1 : within (l_box l1) dom.
Proof. rewrite Box. exact Hw. Qed.
Lemma free1 d : (d < range)%nat -> nth d (l_free l1) true = if (k =? d)%nat then false else nth d (l_free l2) true.
Proof. intros Hd. rewrite Free, set_at_nth. destruct (Nat.eqb_spec k d) as [<-|]; [|reflexivity]. rewrite (wf_free _ _ W2). destruct (Nat.ltb_spec k range); [reflexivity|lia]. Qed.
Lemma ok1 : okpt range l1 pt0.
Proof. split; [apply repeat_length|]. intros d Hd Hn Hf. exfalso. apply Hn. apply Only; assumption. Qed.
Lemma ok2 X : inside l1 X -> okpt range l2 (pt X).
Proof.
  intros [H0 H1]. split; [rewrite set_at_length; apply repeat_length|]. intros d Hd Hn Hf. assert (d = j). { apply Only; [exact Hd|]. rewrite free1 by exact Hd. destruct (Nat.eqb_spec k d); [congruence|exact Hf]. }
  subst d. rewrite set_at_nth, Nat.eqb_refl, repeat_length. destruct (Nat.ltb_spec j range); [|lia]. unfold X0, X1 in *. rewrite Box in *. lra.
Qed.
Lemma nth_pt X d : (d < range)%nat -> nth d (pt X) 0 = if (j =? d)%nat then X else 0.
Proof. intros Hd. rewrite set_at_nth, repeat_length. destruct (Nat.eqb_spec j d) as [->|]; [destruct (Nat.ltb_spec d range); [reflexivity|lia]|]. apply nth_repeat. Qed.
Lemma line_side p s X : ps_side p = set_at (ps_side p0) k s -> line l1 p pt0 X = line l2 p0 (pt X) (side_of (l_box l2) s k).
Proof.
  intros Hs. assert (Lp : length pt0 = range) by apply repeat_length. assert (Lq : length (pt X) = range) by (rewrite set_at_length; exact Lp). apply (nth_ext _ _ 0 0); [rewrite (line_length range l1 W1), (line_length range l2 W2) by assumption; reflexivity|].
  intros d Hd. rewrite (line_length range l1 W1) in Hd by assumption. rewrite (line_nth range l1 W1 F1), (line_nth range l2 W2 F2) by assumption. rewrite nth_pt by exact Hd. rewrite free1 by exact Hd.
  pose proof jk as J. rewrite Hs, Box. destruct (Nat.eqb_spec j d) as [Ej|Ej]; destruct (Nat.eqb_spec k d) as [Ek|Ek].
  - congruence.
  - assert (K := F1). rewrite free1 in K by (apply (wf_dir _ _ W1)). rewrite Ej in K. destruct (Nat.eqb_spec k d); [congruence|]. rewrite K. reflexivity.
  - subst d. rewrite set_at_nth, Nat.eqb_refl, Ls. destruct (Nat.ltb_spec k range); [reflexivity|lia].
  - destruct (nth d (l_free l2) true) eqn:Ef.
    + exfalso. apply Ej. symmetry. apply Only; [exact Hd|]. rewrite free1 by exact Hd. destruct (Nat.eqb_spec k d); [congruence|exact Ef].
    + rewrite set_at_nth. destruct (Nat.eqb_spec k d); [congruence|reflexivity].
Qed.
Lemma line_a X : line l1 pa pt0 X = line l2 p0 (pt X) (X0 l2).
Proof. apply (line_side pa 0 X Sa). Qed.
Lemma line_b X : line l1 pb pt0 X = line l2 p0 (pt X) (X1 l2).
Proof. apply (line_side pb 1 X Sb). Qed.
Lemma mono_le p s t : okpt range l2 p -> inside l2 s -> inside l2 t -> s <= t -> if inc then f p s <= f p t else f p t <= f p s.
Proof. clear Sg. intros Hp Hs Ht [H|<-]; [assert (M := Hmono p s t Hp Hs Ht H); destruct inc; lra|destruct inc; lra]. Qed.
(** A root close to one end, and both ends far from zero. *)
Lemma near_end X r : inside l1 X -> inside l2 r -> f (pt X) r = 0 -> Rabs (r - X0 l2) <= tol2 \/ Rabs (r - X1 l2) <= tol2 -> Rabs (f (pt X) (X0 l2)) <= 1000 * tol2 \/ Rabs (f (pt X) (X1 l2)) <= 1000 * tol2.
Proof.
  intros HX' Hr Z N. destruct (ends_inside range l2 W2) as [I0 I1]. assert (D : forall t, inside l2 t -> in_box dom (line l2 p0 (pt X) t)) by (intros t Ht; apply (line_dom range dom Hdom l2 W2 F2 Hw); [apply ok2; exact HX'|exact Ht]).
  destruct N as [N|N]; [left; assert (K := Lip _ _ _ _ (D _ Hr) (D _ I0))|right; assert (K := Lip _ _ _ _ (D _ Hr) (D _ I1))]; cbv beta in *; unfold line in *; rewrite Z, Rminus_0_r in K; rewrite Rabs_minus_sym in N; (eapply Rle_trans; [exact K|]); (eapply Rle_trans; [|exact Lt2]); apply Rmult_le_compat_l; assumption.
Qed.

(** ** One interval of the first object *)
Section Piece.
Variables (iv1 ref iv : intervals) (i : nat) (x0 x1 X : R).
Hypothesis I1 : compute_all_intervals O l1 pt0 = Ret iv1.
Hypothesis Act : nth_error (iv_active iv1) i = Some true.
Hypothesis N0 : nth_error (ri_roots (iv_ri iv1)) i = Some x0.
Hypothesis N1 : nth_error (ri_roots (iv_ri iv1)) (S i) = Some x1.
Hypothesis HXi : x0 <= X <= x1.
Notation m := (/ 2 * (x0 + x1)).
Hypothesis I2 : compute_all_intervals O l2 (pt m) = Ret ref.
Hypothesis Sim : compute_similar_intervals O l2 ref (pt X) = Ret iv.

Lemma roots_inside1 x : In x (ri_roots (iv_ri iv1)) -> inside l1 x.
Proof.
  intros Hx. destruct (all_ok O range HO l1 pt0 W1 ltac:(apply repeat_length)) as (iv' & E' & [G _]). rewrite I1 in E'. injection E' as <-. apply (good_inside range) in G; [|exact W1]. rewrite Forall_forall in G. apply G. exact Hx.
Qed.
Lemma ins1 u : x0 <= u <= x1 -> inside l1 u.
Proof. pose proof (roots_inside1 _ (nth_error_In _ _ N0)). pose proof (roots_inside1 _ (nth_error_In _ _ N1)). unfold inside in *. lra. Qed.
Lemma signs_mid : sign_ok (ps_sign pa) (f (pt m) (X0 l2)) /\ sign_ok (ps_sign pb) (f (pt m) (X1 l2)).
Proof.
  destruct (all_geo O range HO l1 W1 F1 pt0 iv1 ltac:(apply repeat_length) I1) as (g & mid & s & _ & Er & _ & _ & _ & _ & _ & Ha). rewrite S1 in Ha.
  destruct (active_true O range l1 W1 F1 _ pt0 pt0 _ i (same_refl range l1 pt0 (repeat_length _ _)) Ha Act) as (y0 & y1 & M0 & M1 & _ & Hs).
  rewrite Er in N0, N1. cbn [ent ri_roots] in N0, N1. rewrite N0 in M0. rewrite N1 in M1. injection M0 as <-. injection M1 as <-.
  rewrite <- line_a, <- line_b. split; [destruct (Hs 0%nat ltac:(lia)) as (p & Ep & H); rewrite Ea in Ep|destruct (Hs 1%nat ltac:(lia)) as (p & Ep & H); rewrite Eb in Ep]; injection Ep as <-; exact H.
Qed.
Lemma bound_a : (f (pt m) (X0 l2) <= 0 -> f (pt X) (X0 l2) <= 1000 * tol2) /\ (0 <= f (pt m) (X0 l2) -> - (1000 * tol2) <= f (pt X) (X0 l2)).
Proof.
  destruct (base_bound O range dom HO HX Hdom l1 W1 F1 Hw1 L pt0 iv1 i x0 x1 0 pa HL Lip ok1 I1 N0 N1 ltac:(lia) Ea X HXi) as [A B]. rewrite !line_a in A, B. split; intros H; [specialize (A H)|specialize (B H)]; lra.
Qed.
Lemma bound_b : (f (pt m) (X1 l2) <= 0 -> f (pt X) (X1 l2) <= 1000 * tol2) /\ (0 <= f (pt m) (X1 l2) -> - (1000 * tol2) <= f (pt X) (X1 l2)).
Proof.
  destruct (base_bound O range dom HO HX Hdom l1 W1 F1 Hw1 L pt0 iv1 i x0 x1 1 pb HL Lip ok1 I1 N0 N1 ltac:(lia) Eb X HXi) as [A B]. rewrite !line_b in A, B. split; intros H; [specialize (A H)|specialize (B H)]; lra.
Qed.
Lemma mid_inside : x0 <= m <= x1.
Proof. lra. Qed.
Lemma top_mid : (iv_ri ref = ent (full_list l2 []) /\ no_cross O l2 p0 (pt m) /\ (l_S l2 = false -> forall a, nth_error (iv_active ref) a = Some true -> f (pt m) (X0 l2) < 0 /\ f (pt m) (X1 l2) < 0)) \/
  (exists r r', iv_ri ref = ent (full_list l2 [(r', 0%Z)]) /\ inside l2 r /\ f (pt m) r = 0 /\ (l_S l2 = false -> forall a, nth_error (iv_active ref) a = Some true -> a = if inc then 0%nat else 1%nat)).
Proof. apply (top_all O range dom HO HX Hdom l2 W2 F2 Hw p0 inc C2 E0 Sg0 Hmono Hbig); [apply ok2, ins1, mid_inside|exact I2]. Qed.
Lemma sim_root r' : iv_ri ref = ent (full_list l2 [(r', 0%Z)]) -> exists q, inside l2 q /\ root_kind O l2 p0 (pt X) q /\ ri_roots (iv_ri iv) = (if l_S l2 then [q] else [X0 l2; q; X1 l2]) /\ (l_S l2 = false -> iv_active iv = iv_active ref).
Proof. intros E. apply (similar_intervals O range dom HO HX Hdom l2 W2 F2 Hw p0 inc C2 E0 Hmono ref r' (pt X) iv); [apply ok2, ins1, HXi|exact D2|exact E|exact Sim]. Qed.

Lemma piece_levelset : l_S l2 = true -> forall q, In q (ri_roots (iv_ri iv)) -> inside l2 q /\ Rabs (f (pt X) q) <= 1000 * tol2.
Proof.
  intros ES q Hq. pose proof (tol_ok range l2 W2) as T. destruct top_mid as [(E & _)|(r & r' & E & _)].
  - rewrite (similar_none_S O l2 ref (pt X) iv ES E Sim) in Hq. destruct Hq.
  - destruct (sim_root r' E) as (q' & Iq & Kq & Er & _). rewrite ES in Er. rewrite Er in Hq. destruct Hq as [<-|[]]. split; [exact Iq|]. destruct Kq as [Z|[[_ H]|(-> & A & B & C)]]; [cbv beta; rewrite Z, Rabs_R0; lra|exact H|exfalso].
    destruct C as [N|(u & Iu & Zu & Nu)]; [|destruct (near_end X u (ins1 X HXi) Iu Zu Nu); lra]. destruct signs_mid as [Ga Gb]. destruct bound_a as [A1 A2]. destruct bound_b as [B1 B2]. assert (Sg' := Sg). rewrite ES in Sg'. assert (ML := mono_le). assert (NE := near_end). assert (SM := signs_mid). assert (TM := top_mid). assert (SR := sim_root).
    assert (Hs : (f (pt X) (X0 l2) <= 1000 * tol2 /\ - (1000 * tol2) <= f (pt X) (X1 l2)) \/ (f (pt X) (X1 l2) <= 1000 * tol2 /\ - (1000 * tol2) <= f (pt X) (X0 l2))).
    { clear Sg; destruct inc; injection Sg' as Ga' Gb'; rewrite Ga' in Ga; rewrite Gb' in Gb; [left|right].
      - apply sign_nonpos in Ga. apply sign_pos in Gb. split; [apply A1; exact Ga|apply B2; cbv beta in *; lra].
      - apply sign_nonpos in Gb. apply sign_pos in Ga. split; [apply B1; exact Gb|apply A2; cbv beta in *; lra]. }
    cbv beta in *. destruct N as [[P Q]|[P Q]]; revert A B; unfold Rabs; repeat destruct (Rcase_abs _); lra.
Qed.
Lemma piece_region : l_S l2 = false -> forall a y0 y1 y, nth_error (iv_active iv) a = Some true -> nth_error (ri_roots (iv_ri iv)) a = Some y0 -> nth_error (ri_roots (iv_ri iv)) (S a) = Some y1 -> y0 <= y <= y1 ->
  inside l2 y /\ f (pt X) y <= 1000 * tol2.
Proof.
  intros ES a y0 y1 y Ha M0 M1 Hy. pose proof (tol_ok range l2 W2) as T. destruct (ends_inside range l2 W2) as [J0 J1]. assert (Ok := ok2 X (ins1 X HXi)). destruct bound_a as [A1 A2]. destruct bound_b as [B1 B2]. assert (Sg' := Sg). rewrite ES in Sg'. assert (ML := mono_le). assert (NE := near_end). assert (SM := signs_mid). assert (TM := top_mid). assert (SR := sim_root).
  destruct TM as [(E & _ & K)|(r & r' & E & _ & _ & K)].
  - assert (iv = ref) by (apply (similar_none O l2 ref (pt X)); assumption). subst iv. destruct (K ES a Ha) as [G0 G1]. rewrite E in M0, M1. cbn [ent ri_roots full_list app map fst] in M0, M1.
    destruct a as [|[|a]]; cbn in M0, M1; try discriminate; try (destruct a; discriminate). injection M0 as <-. injection M1 as <-. split; [exact Hy|].
    assert (Q0 := A1 ltac:(cbv beta in *; lra)). assert (Q1 := B1 ltac:(cbv beta in *; lra)). assert (R0 := ML _ _ _ Ok J0 Hy ltac:(apply Hy)). assert (R1 := ML _ _ _ Ok Hy J1 ltac:(apply Hy)). cbv beta in *. destruct inc; lra.
  - destruct (SR r' E) as (q & Iq & Kq & Er & Ea'). rewrite ES in Er. rewrite (Ea' ES) in Ha. assert (Ei := K ES a Ha). rewrite Er in M0, M1.
    destruct SM as [Ga Gb].
    clear Sg; destruct inc eqn:Ein; injection Sg' as Ga' Gb'; subst a; cbn in M0, M1; injection M0 as <-; injection M1 as <-.
    + assert (Iy : inside l2 y) by (unfold inside in *; lra). split; [exact Iy|]. assert (R1 := ML _ _ _ Ok Iy Iq ltac:(lra)). cbv iota in R1. rewrite Ga' in Ga. apply sign_nonpos in Ga. assert (Q0 := A1 Ga). cbv beta in *.
      destruct Kq as [Z|[[_ H]|(-> & _)]]; [lra|pose proof (Rle_abs (f (pt X) q)); cbv beta in *; lra|]. assert (y = X0 l2) by lra. subst y. exact Q0.
    + assert (Iy : inside l2 y) by (unfold inside in *; lra). split; [exact Iy|]. assert (R1 := ML _ _ _ Ok Iq Iy ltac:(lra)). cbv iota in R1. rewrite Gb' in Gb. apply sign_nonpos in Gb. assert (Q1 := B1 Gb). cbv beta in *.
      destruct Kq as [Z|[[_ H]|(-> & A & B & C)]]; [lra|pose proof (Rle_abs (f (pt X) q)); cbv beta in *; lra|]. apply Rle_trans with (f (pt X) (X0 l2)); [exact R1|].
      destruct C as [N|(u & Iu & Zu & Nu)]; [|destruct (NE X u (ins1 X HXi) Iu Zu Nu); lra]. cbv beta in *. destruct N as [[P Q]|[P Q]]; [|lra]. revert A B; unfold Rabs; repeat destruct (Rcase_abs _); lra.
Qed.
End Piece.
(** ** The loops *)
Notation T0 := (tp_const range 0%nat).
Hypothesis D2r : (l_dim l2 <= range)%nat.
Hypothesis AllFree : l_S l2 = true \/ l_dim l2 = range -> forall d, (d < range)%nat -> nth d (l_free l2) true = true.
Lemma set_tid_inj a b : set_at T0 j a = set_at T0 j b -> a = b.
Proof.
  intros E. assert (K : forall c, nth j (set_at T0 j c) 0%nat = c). { intros c. rewrite set_at_nth, Nat.eqb_refl. unfold tp_const. rewrite repeat_length. pose proof (wf_dir _ _ W1). destruct (Nat.ltb_spec j range); [reflexivity|lia]. }
  rewrite <- (K a), <- (K b), E. reflexivity.
Qed.
Definition refs_geo (iv1 : intervals) (rs : list refmap) : Prop := exists r, rs = [r] /\ forall tid ref, find_tid r tid = Some ref ->
  exists i x0 x1, tid = set_at T0 j i /\ nth_error (iv_active iv1) i = Some true /\ nth_error (ri_roots (iv_ri iv1)) i = Some x0 /\ nth_error (ri_roots (iv_ri iv1)) (S i) = Some x1 /\ compute_all_intervals O l2 (pt (/ 2 * (x0 + x1))) = Ret ref.
Lemma refs_inv refs : compute_ref_intervals O [l1; l2] [[]; []] pt0 T0 = Ret refs -> exists iv1 rs, compute_all_intervals O l1 pt0 = Ret iv1 /\ refs = [(T0, iv1)] :: rs /\ refs_geo iv1 rs.
Proof.
  intros E. cbn [compute_ref_intervals] in E. rewrite D1 in E. cbn [Nat.eqb clear_refs map] in E. apply bind_inv in E as (iv1 & E1 & E). apply bind_inv in E as (rs & E2 & E). injection E as <-. exists iv1, rs. split; [exact E1|]. split; [reflexivity|].
  apply (foldM_pres _ (refs_geo iv1) _ _ _) in E2; [exact E2|exists []; split; [reflexivity|discriminate]|]. clear E2 rs. intros rs i rs' _ (r & -> & Hr) E. apply bind_inv in E as (a & Ha & E). apply at_inv in Ha. destruct a; [|injection E as <-; exists r; auto].
  apply bind_inv in E as (x0 & H0 & E). apply bind_inv in E as (x1 & H1 & E). apply at_inv in H0, H1. apply bind_inv in E as (ref & E3 & E). apply bind_inv in E as (rz & E4 & E). injection E as <-.
  assert (rz = []). { destruct (l_dim l2 =? 1)%nat; cbn [clear_refs map] in E4; (apply (foldM_pres _ (fun x => x = []) _ _ _) in E4; [exact E4|reflexivity|]); intros a x a' _ -> E5; apply bind_inv in E5 as (b & _ & E5); (destruct b; [|injection E5 as <-; reflexivity]); apply bind_inv in E5 as (? & _ & E5); apply bind_inv in E5 as (? & _ & E5); injection E5 as <-; reflexivity. }
  subst rz. exists (emplace r (set_at T0 j i) ref). split; [reflexivity|]. intros tid ref' Hf. unfold emplace in Hf. destruct (find_tid r (set_at T0 j i)) eqn:Ef; [apply Hr; exact Hf|]. cbn [find_tid] in Hf.
  destruct (tid_eqb_spec (set_at T0 j i) tid) as [Et|Et]; [|apply Hr; exact Hf]. injection Hf as <-. exists i, x0, x1. auto.
Qed.
Lemma free_line X y : (l_S l2 = true \/ l_dim l2 = range) -> set_at (pt X) k y = line l2 p0 (pt X) y.
Proof.
  intros H. assert (Lq : length (pt X) = range) by (rewrite set_at_length; apply repeat_length). apply (nth_ext _ _ 0 0); [rewrite (line_length range l2 W2), set_at_length by assumption; exact Lq|]. intros d Hd. rewrite set_at_length, Lq in Hd.
  rewrite (line_nth range l2 W2 F2) by assumption. rewrite (AllFree H d Hd), set_at_nth. destruct (Nat.eqb_spec k d) as [<-|]; [|reflexivity]. cbv beta in Lq. rewrite Lq. destruct (Nat.ltb_spec k range); [reflexivity|lia].
Qed.
Definition placed (x : list R) : Prop := exists X y, inside l1 X /\ inside l2 y /\ x = line l2 p0 (pt X) y /\ if l_S l2 then Rabs (o_phi O x) <= 1000 * tol2 else o_phi O x <= 1000 * tol2.
Lemma planar_events refs evs : compute_ref_intervals O [l1; l2] [[]; []] pt0 T0 = Ret refs -> process O range order [l1; l2] refs pt0 T0 T0 = Ret evs -> forall e, In e evs -> exists t p x, e = Insert t p x /\ placed x.
Proof.
  intros E H e He. destruct (refs_inv refs E) as (iv1 & rs & E1 & -> & r & -> & Hr). clear E. cbn [process] in H. unfold compute_intervals at 1 in H. rewrite D1 in H. cbn [find_tid] in H.
  assert (Et : tid_eqb T0 T0 = true) by (destruct (tid_eqb_spec T0 T0); congruence). rewrite Et in H. cbn [Nat.eqb bind] in H. rewrite S1 in H.
  destruct (foreach_in _ _ _ _ H He) as (i & e1 & _ & H1 & He1). clear H He evs. apply bind_inv in H1 as (a & Ha & H1). apply at_inv in Ha. destruct a; [|injection H1 as <-; destruct He1].
  apply bind_inv in H1 as (x0 & N0 & H1). apply bind_inv in H1 as (x1 & N1 & H1). apply at_inv in N0, N1. destruct (foreach_in _ _ _ _ H1 He1) as (jn & e2 & Hj & H2 & He2). clear H1 He1 e1. apply in_seq in Hj.
  set (X := x0 + (x1 - x0) * node01 (o_cheb O) order jn) in *.
  assert (Hx01 : x0 <= x1). { destruct (all_geo O range HO l1 W1 F1 pt0 iv1 ltac:(apply repeat_length) E1) as (g & mid & s & _ & Er & HS & _). rewrite Er in N0, N1. cbn [ent ri_roots] in N0, N1. apply (sorted_gap _ _ _ _ HS N0 N1). }
  assert (Hnode := node_in O range order HO Hord jn ltac:(lia)). assert (HXi : x0 <= X <= x1) by (unfold X; split; nra).
  apply bind_inv in H2 as (iv & H2 & H3). unfold compute_intervals in H2. destruct (find_tid r (set_at T0 j i)) as [ref|] eqn:Ef; [|discriminate]. destruct (Nat.eqb_spec (l_dim l2) 1); [contradiction|].
  destruct (Hr _ _ Ef) as (i' & y0 & y1 & Ei & _ & N0' & N1' & E2). apply set_tid_inj in Ei. subst i'. rewrite N0 in N0'. rewrite N1 in N1'. injection N0' as <-. injection N1' as <-.
  assert (IX : inside l1 X) by (apply (ins1 iv1 i x0 x1 E1 N0 N1); exact HXi).
  assert (CS : l_S l2 = true \/ l_S l2 = false) by (clear; destruct (l_S l2); auto). destruct CS as [ES|ES]; rewrite ES in H3.
  - injection H3 as <-. apply in_map_iff in He2 as (q & <- & Hq). eexists _, _, _. split; [reflexivity|]. destruct (piece_levelset iv1 ref iv i x0 x1 X E1 Ha N0 N1 HXi E2 H2 ES q Hq) as [Iq Bq]. exists X, q. rewrite ES. split; [exact IX|]. split; [exact Iq|]. rewrite free_line by (left; exact ES). split; [reflexivity|exact Bq].
  - destruct (foreach_in _ _ _ _ H3 He2) as (a & e3 & _ & H4 & He3). clear H3 He2 e2. apply bind_inv in H4 as (b & Hb & H4). apply at_inv in Hb. destruct b; [|injection H4 as <-; destruct He3]. apply bind_inv in H4 as (y0 & M0 & H4). apply bind_inv in H4 as (y1 & M1 & H4). apply at_inv in M0, M1.
    destruct (foreach_in _ _ _ _ H4 He3) as (jy & e4 & Hjy & H5 & He4). clear H4 He3 e3. apply in_seq in Hjy. assert (Hny := node_in O range order HO Hord jy ltac:(lia)). set (y := y0 + (y1 - y0) * node01 (o_cheb O) order jy) in *.
    assert (Hs : y0 <= y1).
    { assert (K := piece_region iv1 ref iv i x0 x1 X E1 Ha N0 N1 HXi E2 H2 ES a y0 y1). destruct (top_mid iv1 ref i x0 x1 X E1 N0 N1 HXi E2) as [(E & _)|(r0 & r' & E & _)].
      - assert (iv = ref) by (apply (similar_none O l2 ref (pt X)); assumption). subst iv. rewrite E in M0, M1. cbn [ent ri_roots full_list app map fst] in M0, M1. pose proof (x_lt range l2 W2). destruct a as [|[|a]]; cbn in M0, M1; try discriminate; try (destruct a; discriminate). injection M0 as <-. injection M1 as <-. lra.
      - destruct (sim_root iv1 ref iv i x0 x1 X E1 N0 N1 HXi H2 r' E) as (q & Iq & _ & Er & _). rewrite ES in Er. rewrite Er in M0, M1. unfold inside in Iq. destruct a as [|[|[|a]]]; cbn in M0, M1; try discriminate; try (destruct a; discriminate); injection M0 as <-; injection M1 as <-; lra. }
    assert (Hy : y0 <= y <= y1) by (unfold y; split; nra). destruct (piece_region iv1 ref iv i x0 x1 X E1 Ha N0 N1 HXi E2 H2 ES a y0 y1 y Hb M0 M1 Hy) as [Iy By].
    assert (G : forall t p, placed (line l2 p0 (pt X) y) -> forall e, In e [Insert t p (line l2 p0 (pt X) y)] -> exists t p x, e = Insert t p x /\ placed x) by (intros t p Q e' [<-|[]]; eauto).
    assert (Q : placed (line l2 p0 (pt X) y)) by (exists X, y; rewrite ES; auto).
    destruct (Nat.ltb_spec (l_dim l2) range).
    + destruct (rev (fixed_dirs (l_free l2))) as [|fd fl]; [discriminate|]. unfold psi_at in H5. rewrite E0 in H5. cbn [bind] in H5. injection H5 as <-. eapply G; [exact Q|].
      rewrite (spb_line range l2 W2 F2 p0 (set_at (pt X) k y) (pt X) y) in He4; [exact He4| |].
      * apply same_set. apply same_refl. rewrite set_at_length. apply repeat_length.
      * rewrite set_at_nth, Nat.eqb_refl, set_at_length, repeat_length. pose proof (wf_dir _ _ W2). destruct (Nat.ltb_spec k range); [reflexivity|lia].
    + injection H5 as <-. rewrite free_line in He4 by (right; lia). eapply G; [exact Q|exact He4].
Qed.
End Planar.
