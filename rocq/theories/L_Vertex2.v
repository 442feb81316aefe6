(** The vertices of the box in the mesh of a region of the plane: the constructor. *)
From Coq Require Import Reals List Lia Lra Permutation Sorted Arith ZArith.
From Verif Require Import M_Reparam M_General S_General S_Geo S_Faces S_Vertex S_Mesh S_Roots L_Real L_BBox L_Point L_TensorNat L_Mesh L_Mesh5 L_Roots P_Roots L_General L_General2 L_General3 L_General4 L_General5 L_General6 L_General7 L_Reparam L_Reparam3 L_Geo1 L_Geo2 L_Geo3 L_Geo4 L_Geo5 L_Faces L_Vertex.
From Verif Require L_Geo7.
Import ListNotations.
Local Close Scope Z_scope. Local Close Scope nat_scope. Local Open Scope R_scope.

Section Plane2.
Variables (O : oracles) (order : nat) (dom : bbox) (M : R) (k : nat) (v : list R).
Hypothesis HO : sound O 2.
Hypothesis HX : exact O dom.
Hypothesis HB : large_box 2 dom.
Hypothesis HM : moderate (o_phi O) dom M.
Hypothesis Hord : (2 <= order)%nat.
Hypothesis Hends : ends_nodes (o_cheb O).
Hypothesis Hch : chooses O dom k.
Hypothesis Hcl : clear_sides (o_phi O) dom k (accuracy M).
Hypothesis Hv : box_vertex dom v.
Hypothesis Nv : o_phi O v < 0.
Notation p0 := (mk_psi (tp_const 2 0%nat) (-1)).
Notation psi0 := (set_at (repeat (o_psi O) (n_facets 2)) 0 p0).
Notation free := (repeat true 2).
Notation inc := (Rltb 0 (fst (fst (o_grad O free dom p0 k)))).
Notation pa := (mk_psi (set_at (tp_const 2 0%nat) k 0%nat) (fst (o_signs O false inc (-1)))).
Notation pb := (mk_psi (set_at (tp_const 2 0%nat) k 1%nat) (snd (o_signs O false inc (-1)))).
Notation new := (set_at (set_at (repeat (o_psi O) (n_facets 2)) 0 pa) (0 + 1) pb).
Notation l1 := (mk_obj 1 false (set_at free k false) new 2 dom (1 - k)).
Notation l2 := (mk_obj 2 false free psi0 1 dom k).
Lemma v_k2 : k = 0%nat \/ k = 1%nat.
Proof. destruct Hch as [H _]. lia. Qed.
Lemma v_len : length (bmin dom) = 2%nat.
Proof. exact (proj1 HB). Qed.
Lemma v_pos d : (d < 2)%nat -> nth d (bmin dom) 0 < nth d (bmax dom) 0.
Proof. intros Hd. pose proof default_tol_pos as T. assert (I16 := inv_first 2 dom HB). assert (Hp := ext_pos 2 dom 16 dom I16 d Hd). assert (P16 : 1 <= 2 ^ 16) by (apply pow_R1_Rle; lra). unfold extent, hi, lo in Hp. nra. Qed.
Lemma v_in : in_box dom v.
Proof. destruct Hv as [Lv H]. split; [exact Lv|]. intros d Hd. rewrite Lv, v_len in Hd. pose proof (v_pos d Hd). destruct (H d ltac:(rewrite Lv, v_len; exact Hd)) as [-> | ->]; lra. Qed.
Lemma v_face x : in_box dom x -> on_face free dom p0 x.
Proof. intros H. split; [exact H|]. intros d Hd Hf. exfalso. destruct H as [H _]. rewrite (proj1 HB) in H. destruct d as [|[|d]]; cbn in Hf; try discriminate. lia. Qed.
Lemma v_dom : within dom dom.
Proof. apply (i_in 2 dom 16), inv_first. exact HB. Qed.
(** The function has a uniform sign: the whole box. *)
Lemma v_uniform evs refs' : snd (o_value O free dom p0) = true -> construct O 2 order 2 n_max_subdivs false [] [] free psi0 1 dom = Ret (evs, refs') -> evs = [Clear; Full dom].
Proof.
  intros Eu. assert (A := e_value O dom HX free dom p0 v v_dom Eu (v_face v v_in)). assert (Neg : fst (o_value O free dom p0) < 0) by nra.
  rewrite construct_S. unfold prune. cbn [prune_loop Nat.ltb Nat.leb]. change (nth_error psi0 0) with (Some p0). cbv beta iota. cbn [bind]. rewrite Eu. unfold consistent. cbn [ps_sign].
  assert (Q : Rleb 0 (fst (o_value O free dom p0)) = false) by (apply Rleb_false; exact Neg). assert (Q' : Rleb (fst (o_value O free dom p0)) 0 = true) by (apply Rleb_true; lra). rewrite Q, Q'. cbn [Z.leb Z.compare Nat.sub andb orb]. change (nth_error psi0 0) with (Some p0). cbn [prune_loop Nat.ltb Nat.leb bind negb Nat.eqb whole full_events fst snd starts app]. intros E. injection E as <- _. reflexivity.
Qed.
Lemma v_construct evs refs' : snd (o_value O free dom p0) = false -> construct O 2 order 2 n_max_subdivs false [] [] free psi0 1 dom = Ret (evs, refs') ->
  exists refs es, compute_ref_intervals O [l1; l2] [[]; []] (repeat 0 2) (tp_const 2 0%nat) = Ret refs /\ process O 2 order [l1; l2] refs (repeat 0 2) (tp_const 2 0%nat) (tp_const 2 0%nat) = Ret es /\ evs = Clear :: es.
Proof.
  intros Eu. rewrite construct_S. unfold prune. cbn [prune_loop Nat.ltb Nat.leb]. change (nth_error psi0 0) with (Some p0). cbn [bind]. rewrite Eu. cbn [bind negb Nat.eqb]. unfold psi_at. change (nth_error psi0 0) with (Some p0). cbn [bind].
  rewrite (height_chosen O dom k Hch HB). cbn [reduce_loop]. unfold psi_at. change (nth_error psi0 0) with (Some p0). cbn [bind]. assert (Eg : snd (o_grad O free dom p0 k) = true) by (destruct Hch as (_ & H & _); exact H). rewrite Eg. cbn [fst snd length repeat n_facets Nat.sub Nat.pow Nat.mul Nat.add Nat.ltb Nat.leb bind]. intros E.
  change [true; true] with free in E. apply bind_inv in E as ([es rs] & E & E2). injection E2 as <- <-. rewrite construct_1 in E.
  assert (Ef : rev (filter (fun d => nth d (set_at free k false) false) (seq 0 2)) = [(1 - k)%nat]) by (destruct v_k2 as [-> | ->]; reflexivity). rewrite Ef in E. cbv zeta in E. apply bind_inv in E as (refs & E1 & E). apply bind_inv in E as (evs0 & E2 & E). injection E as <- <-. exists refs, evs0. split; [exact E1|]. split; [exact E2|reflexivity].
Qed.
(** The line through a point, in direction k. *)
Lemma v_point x : in_box dom x -> line l2 p0 (set_at (repeat 0 2) (1 - k) (nth (1 - k) x 0)) (nth k x 0) = x.
Proof. intros [Lx Hx]. rewrite (proj1 HB) in Lx. destruct x as [|x0 [|x1 [|]]]; cbn in Lx; try lia. destruct v_k2 as [Ek|Ek]; rewrite Ek in *; reflexivity. Qed.
Lemma v_event evs refs' : snd (o_value O free dom p0) = false -> construct O 2 order 2 n_max_subdivs false [] [] free psi0 1 dom = Ret (evs, refs') -> exists t p, In (Insert t p v) evs.
Proof.
  intros Eu E. destruct (v_construct evs refs' Eu E) as (refs & es & E1 & E2 & ->). clear E Eu. assert (Tp := default_tol_pos). assert (HB' := HB). destruct HB' as (L1 & L2 & L3). assert (I16 := inv_first 2 dom HB). assert (Hpos := ext_pos 2 dom 16 dom I16). assert (P16 : 1 <= 2 ^ 16) by (apply pow_R1_Rle; lra).
  assert (Hj : (1 - k < 2)%nat) by lia. assert (Hk : (k < 2)%nat) by (destruct v_k2; lia). assert (HM' := HM). destruct HM' as (M1 & HMe & L & L0 & LM & Lip).
  assert (W1 : wf_obj 2 l1). { split; cbn [l_free l_box l_dir l_psi l_count l_dim l_S]; try rewrite set_at_length; try reflexivity; try lia; try discriminate. change (default_tol < extent dom (1 - k)). specialize (Hpos (1 - k)%nat Hj). nra. }
  assert (W2 : wf_obj 2 l2). { split; cbn [l_free l_box l_dir l_psi l_count l_dim l_S]; try reflexivity; try lia; try discriminate; try (cbn; lia). change (default_tol < extent dom k). specialize (Hpos k Hk). nra. }
  assert (t2 : compute_tolerance l2 <= M * default_tol). { unfold compute_tolerance, tol_update. cbn [l_box l_dir]. apply Rmax_lub; [nra|]. assert (X := HMe k ltac:(lia)). unfold extent, hi, lo. nra. }
  assert (Big : 2 * compute_tolerance l2 < X1 l2 - X0 l2).
  { unfold compute_tolerance, tol_update, X1, X0. cbn [l_box l_dir]. fold (extent dom k). specialize (Hpos k Hk). assert (65536 * default_tol < extent dom k) by (replace 65536 with (2 ^ 16) by ring; exact Hpos). pose proof L_Geo7.tol_small. unfold Rmax; destruct (Rle_dec _ _); nra. }
  assert (Hdf := v_face). assert (Hdi := v_dom).
  assert (Eg : snd (o_grad O free dom p0 k) = true) by (destruct Hch as (_ & H & _); exact H).
  assert (F2 : nth k free true = true) by (destruct v_k2 as [-> | ->]; reflexivity). assert (F2' : nth k free false = true) by (destruct v_k2 as [-> | ->]; reflexivity).
  assert (Hmono : forall pt s t, okpt 2 l2 pt -> inside l2 s -> inside l2 t -> s < t -> if inc then o_phi O (line l2 p0 pt s) < o_phi O (line l2 p0 pt t) else o_phi O (line l2 p0 pt t) < o_phi O (line l2 p0 pt s)).
  { intros pt s t Hp Hs Ht Hst. assert (Q : forall u, inside l2 u -> on_face free dom p0 (line l2 p0 pt u)) by (intros u Hu; apply Hdf; apply (line_dom 2 dom L1 l2 W2 F2 Hdi); assumption).
    assert (G := e_grad O dom HX free dom p0 k _ s t Hdi F2' Eg (Q s Hs) (Q t Ht) Hst). change (set_at (set_psi_bounds l2 p0 pt) k s) with (line l2 p0 pt s) in G. change (set_at (set_psi_bounds l2 p0 pt) k t) with (line l2 p0 pt t) in G.
    unfold Rltb. destruct (Rlt_dec 0 (fst (fst (o_grad O free dom p0 k)))); nra. }
  assert (Sgs : (ps_sign pa, ps_sign pb) = (if inc then (-1, 0) else (0, -1))%Z) by (cbn [ps_sign]; rewrite <- surjective_pairing; apply (e_signs_region O dom HX)).
  destruct Hv as [Lv Hvd]. assert (Lv2 : length v = 2%nat) by (rewrite Lv; exact v_len). assert (Hvj := Hvd (1 - k)%nat ltac:(lia)). assert (Hvk := Hvd k ltac:(lia)).
  assert (Ss : exists s : bool, nth (1 - k) v 0 = if s then X1 l1 else X0 l1) by (destruct Hvj as [H|H]; [exists false|exists true]; exact H).
  assert (Sv : exists s : bool, nth k v 0 = if s then X1 l2 else X0 l2) by (destruct Hvk as [H|H]; [exists false|exists true]; exact H).
  destruct Ss as (s & Es). destruct Sv as (vs & Evs). assert (Vp := v_point v v_in).
  destruct (corner_event O 2 order dom HO HX L1 Hord Hends l1 l2 p0 pa pb inc L W1 W2 eq_refl ltac:(discriminate) eq_refl eq_refl eq_refl eq_refl eq_refl eq_refl eq_refl ltac:(destruct v_k2 as [-> | ->]; reflexivity) F2) with (eta := accuracy M) (e := nth (1 - k) v 0) (s := s) (vs := vs) (refs := refs) (evs := es) as (t & p & Hin); try assumption; try reflexivity.
  - intros d Hd. destruct v_k2 as [-> | ->]; destruct d as [|[|d]]; cbn; intros; try lia; try discriminate; reflexivity.
  - rewrite acc_eq. nra.
  - intros X HXi. assert (Ok : okpt 2 l2 (set_at (repeat 0 2) (1 - k) X)). { split; [rewrite set_at_length; reflexivity|]. intros d Hd Hne Hf. cbn [l_dir] in Hne. assert (d = (1 - k)%nat) by lia. subst d. rewrite set_at_nth, Nat.eqb_refl. cbn [length repeat]. destruct (Nat.ltb_spec (1 - k) 2); [exact HXi|lia]. }
    destruct (ends_inside 2 l2 W2) as [I0 I1]. assert (D : forall u, inside l2 u -> in_box dom (line l2 p0 (set_at (repeat 0 2) (1 - k) X) u)) by (intros u Hu; apply (line_dom 2 dom L1 l2 W2 F2 Hdi); assumption).
    assert (N : forall u, nth k (line l2 p0 (set_at (repeat 0 2) (1 - k) X) u) 0 = u) by (intros u; destruct v_k2 as [-> | ->]; reflexivity).
    split; [apply (Hcl _ 0%nat); [lia|apply D; exact I0|rewrite N; reflexivity]|apply (Hcl _ 1%nat); [lia|apply D; exact I1|rewrite N; reflexivity]].
  - cbn [l_dir]. rewrite <- Evs, Vp. exact Nv.
  - exists t, p. right. cbn [l_dir] in Hin. rewrite <- Evs in Hin. replace v with (set_at (set_at (repeat 0 2) (1 - k) (nth (1 - k) v 0)) k (nth k v 0)) at 1; [exact Hin|]. destruct v as [|x0 [|x1 [|]]]; cbn in Lv2; try lia. destruct v_k2 as [-> | ->]; reflexivity.
Qed.
(** The vertex is a point of the full cell. *)
Lemma v_full m mp m' mp' : m_order m = order -> foldM (run_event (o_cheb O) 2) [Clear; Full dom] (m, mp) = Ret (m', mp') -> exists np, m_points m' = m_points m ++ np /\ In v np.
Proof.
  intros Ho E. cbn [foldM run_event bind fst snd] in E. apply bind_inv in E as ([m1 mp1] & E1 & E). injection E as <- <-. apply bind_inv in E1 as (m2 & E1 & E3). injection E3 as <- _. unfold add_full_cell in E1. rewrite full_loop in E1. apply bind_inv in E1 as (nc & _ & E1). injection E1 as <-. cbn [m_points].
  eexists. split; [reflexivity|]. destruct Hv as [Lv Hvd]. assert (Lv2 : length v = 2%nat) by (rewrite Lv; exact v_len). assert (Q := node_ends (o_cheb O) order Hends Hord). destruct Q as [Q0 Q1]. rewrite Ho.
  assert (K : forall d, (d < 2)%nat -> exists i, (i < order)%nat /\ nth d v 0 = nth d (bmin dom) 0 + (nth d (bmax dom) 0 - nth d (bmin dom) 0) * node01 (o_cheb O) order i).
  { intros d Hd. destruct (Hvd d ltac:(lia)) as [H|H]; rewrite H; [exists 0%nat|exists (order - 1)%nat]; (split; [lia|]); rewrite ?Q0, ?Q1; ring. }
  destruct (K 0%nat ltac:(lia)) as (i0 & H0 & E0). destruct (K 1%nat ltac:(lia)) as (i1 & H1 & E1). apply in_map_iff. exists [i0; i1]. destruct HB as (L1 & L2 & _). split.
  - unfold cell_point, box_lengths. destruct (bmin dom) as [|a0 [|a1 [|]]], (bmax dom) as [|b0 [|b1 [|]]], v as [|x0 [|x1 [|]]]; cbn in L1, L2, Lv2; try lia. cbn [nth] in E0, E1. rewrite E0, E1. reflexivity.
  - change [order; order] with (tp_const 2 order). apply is_index_all. split; [reflexivity|]. repeat constructor; assumption.
Qed.
End Plane2.
