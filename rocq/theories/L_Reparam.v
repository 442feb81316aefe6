(** Lemmas for the complete reparameterization of a box: the top call. *)
From Coq Require Import Reals List Lia Lra Permutation Arith ZArith.
From Verif Require Import M_Reparam M_General S_General S_Mesh S_Roots L_Real L_BBox L_Point L_TensorNat L_Mesh L_Mesh2 L_Mesh5 L_Roots L_General L_General2 L_General3 L_General4 L_General5 L_General6 L_General7.
Import ListNotations.
Local Close Scope Z_scope. Local Close Scope R_scope. Local Open Scope nat_scope.

Lemma large_ext range dom dim : large_box range dom -> dim <= 3 -> forall d, d < range -> (2 ^ need dim n_max_subdivs * default_tol < extent dom d)%R.
Proof.
  intros (_ & _ & H) Hd d Hr. specialize (H d Hr). unfold extent, hi, lo. eapply Rle_lt_trans; [|exact H]. unfold default_tol, eps.
  apply Rmult_le_compat_r; [pose proof (pow_lt 2 52 ltac:(lra)) as P; apply Rinv_0_lt_compat in P; lra|]. apply Rle_pow; [lra|]. unfold need, n_max_subdivs. destruct dim as [|[|[|[|]]]]; lia.
Qed.
Lemma large_wide range dom : large_box range dom -> forall d, d < range -> (lo dom d <= hi dom d)%R.
Proof.
  intros (_ & _ & H) d Hr. specialize (H d Hr). pose proof (pow_lt 2 52 ltac:(lra)) as P. apply Rinv_0_lt_compat in P. pose proof (pow_lt 2 32 ltac:(lra)) as Q. unfold hi, lo. nra.
Qed.
Lemma nth_repeat_lt {A} (a b : A) n d : d < n -> nth d (repeat a n) b = a.
Proof. intros H. rewrite (nth_indep _ b a) by (rewrite repeat_length; assumption). apply nth_repeat. Qed.
Lemma psi0_length {A} range (p q : A) : length (set_at (repeat p (n_facets range)) 0 q) = n_facets range.
Proof. rewrite set_at_length. apply repeat_length. Qed.
Lemma init_cells O range (S : bool) dom : range = 2 \/ range = 3 -> sound O range -> large_box range dom ->
  pre range dom (if S then Lev else Vol) range n_max_subdivs S [] [] (repeat true range) (set_at (repeat (o_psi O) (n_facets range)) 0 (mk_psi (tp_const range 0) (-1))) 1 dom.
Proof.
  intros Hr HO HL. constructor.
  - apply repeat_length.
  - destruct Hr as [-> | ->]; reflexivity.
  - exact I.
  - constructor.
  - reflexivity.
  - apply psi0_length.
  - lia.
  - lia.
  - apply HL.
  - apply HL.
  - intros d Hd. split; lra.
  - apply large_ext; [assumption|lia].
  - destruct S; split; reflexivity.
  - intros d Hd. left. apply nth_repeat_lt. assumption.
  - intros d _. split; [intros []|]. intros [v E]. destruct S; discriminate.
  - intros d [].
  - intros H. destruct S; [congruence|]. cbn. lia.
Qed.
Lemma init_facet O range c s dom : range = 2 \/ range = 3 -> c < range -> sound O range -> large_box range dom ->
  pre range dom (Fac c (side_of dom s c)) (range - 1) n_max_subdivs false [] [] (set_at (repeat true range) c false)
    (set_at (repeat (o_psi O) (n_facets range)) 0 (mk_psi (set_at (tp_const range 0) c s) (-1))) 1 dom.
Proof.
  intros Hr Hc HO HL. constructor.
  - rewrite set_at_length. apply repeat_length.
  - destruct Hr as [-> | ->]; destruct c as [|[|[|]]]; try lia; reflexivity.
  - exact I.
  - constructor.
  - reflexivity.
  - apply psi0_length.
  - rewrite Nat.mul_1_l. apply Nat.pow_le_mono_r; lia.
  - lia.
  - apply HL.
  - apply HL.
  - intros d Hd. split; lra.
  - apply large_ext; [assumption|lia].
  - cbn. split; [reflexivity|]. split; [reflexivity|]. destruct Hr as [-> | ->]; destruct c as [|[|[|]]]; try lia; (split; [reflexivity|]); eexists; (split; [reflexivity|]); reflexivity.
  - intros d Hd. rewrite set_at_nth. rewrite repeat_length. destruct (Nat.eqb_spec c d) as [->|Hn]; [right; right; exists (side_of dom s d); reflexivity|].
    left. apply nth_repeat_lt. assumption.
  - intros d Hd. split; [intros []|]. intros [v E]. injection E as <- _. rewrite set_at_nth, repeat_length, Nat.eqb_refl in Hd. destruct (Nat.ltb_spec c range) in Hd; [discriminate|lia].
  - intros d [].
  - intros _. cbn. lia.
Qed.
Lemma final_in_box range dom K x : length (bmin dom) = range -> final range dom K x -> in_box dom x.
Proof. intros L (Hl & Hb & _). split; [congruence|]. intros d Hd. rewrite Hl in Hd. apply Hb. assumption. Qed.
Lemma added_weaken mdim (P Q : list R -> Prop) m m' np ni : (forall x, P x -> Q x) -> cells_added mdim P m m' np ni -> cells_added mdim Q m m' np ni.
Proof. intros H (A & B & C & D & E & F & G & I). repeat (split; [assumption|]). eapply Forall_impl; [exact H|exact I]. Qed.
Lemma run_events_ok cheb mdim order P ex evs m n : adds cheb mdim order P ex evs -> m_order m = order -> length (m_conn m) = n * order ^ mdim ->
  exists m' np ni, run_events cheb mdim m evs = Ret m' /\ cells_added mdim P m m' np ni /\ (ex -> length ni = length np).
Proof.
  intros A Ho Hn. destruct (A m n Ho Hn) as (m' & mp & np & ni & E & C & L). exists m', np, ni. unfold run_events. rewrite E. auto.
Qed.
Lemma reparam_cells_ok O range (S : bool) m n dom : range = 2 \/ range = 3 -> sound O range -> large_box range dom -> 2 <= m_order m ->
  length (m_conn m) = n * m_order m ^ mesh_dim range S ->
  exists m' np ni, reparam_cells O range S m dom = Ret m' /\ cells_added (mesh_dim range S) (in_box dom) m m' np ni /\ (S = false -> length ni = length np).
Proof.
  intros Hr HO HL Ho Hn. pose (K := if S then Lev else Vol).
  assert (HK : forall c v, K = Fac c v -> (lo dom c <= v <= hi dom c)%R) by (intros c v E; unfold K in E; destruct S; discriminate).
  assert (HK' : forall c v, K = Fac c v -> c < range) by (intros c v E; unfold K in E; destruct S; discriminate).
  destruct (construct_ok O range (m_order m) dom K HO Ho ltac:(lia) HK HK' range n_max_subdivs S [] [] _ _ _ _ ltac:(lia) (init_cells O range S dom Hr HO HL)) as (evs & refs' & E & _ & A).
  unfold reparam_cells. rewrite E. cbn [bind fst].
  assert (Em : mdim range K = mesh_dim range S) by (unfold K; destruct S; reflexivity). rewrite Em in A.
  destruct (run_events_ok _ _ _ _ _ _ m n A eq_refl Hn) as (m' & np & ni & E2 & C & L). exists m', np, ni. split; [exact E2|]. split.
  - eapply added_weaken; [|exact C]. intros x Hx. eapply final_in_box; [apply HL|exact Hx].
  - intros ->. apply L. discriminate.
Qed.
Lemma reparam_facet_ok O range c s m n dom : range = 2 \/ range = 3 -> c < range -> s < 2 -> sound O range -> large_box range dom -> 2 <= m_order m ->
  length (m_conn m) = n * m_order m ^ (range - 1) ->
  exists m' np ni, reparam_facet_cells O range (2 * Z.of_nat c + Z.of_nat s) m dom = Ret m' /\
    cells_added (range - 1) (fun x => in_box dom x /\ nth c x 0%R = side_of dom s c) m m' np ni /\ length ni = length np.
Proof.
  intros Hr Hc Hs HO HL Ho Hn. pose (K := Fac c (side_of dom s c)).
  assert (HK : forall c v, K = Fac c v -> (lo dom c <= v <= hi dom c)%R).
  { intros c' v E. injection E as <- <-. pose proof (large_wide _ _ HL c Hc). unfold side_of. destruct (s =? 0); lra. }
  assert (HK' : forall c v, K = Fac c v -> c < range) by (intros c' v E; injection E as <- _; assumption).
  destruct (construct_ok O range (m_order m) dom K HO Ho ltac:(lia) HK HK' (range - 1) n_max_subdivs false [] [] _ _ _ _ ltac:(lia) (init_facet O range c s dom Hr Hc HO HL)) as (evs & refs' & E & _ & A).
  unfold reparam_facet_cells, facet_const_dir, facet_side.
  rewrite !assert_true by (apply andb_true_intro; split; [apply Z.leb_le|apply Z.ltb_lt]; lia). cbn [bind].
  replace ((2 * Z.of_nat c + Z.of_nat s) / 2)%Z with (Z.of_nat c) by (apply Z.div_unique with (Z.of_nat s); lia).
  replace ((2 * Z.of_nat c + Z.of_nat s) mod 2)%Z with (Z.of_nat s) by (apply Z.mod_unique with (Z.of_nat c); lia). rewrite !Nat2Z.id.
  rewrite E. cbn [bind fst].
  destruct (run_events_ok _ _ _ _ _ _ m n A eq_refl Hn) as (m' & np & ni & E2 & C & L). exists m', np, ni. split; [exact E2|]. split.
  - eapply added_weaken; [|exact C]. intros x Hx. split; [eapply final_in_box; [apply HL|exact Hx]|]. apply (proj2 (proj2 Hx)). reflexivity.
  - apply L. discriminate.
Qed.
