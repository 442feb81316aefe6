(** Lemmas for the complete reparameterization of a box: everything together. *)
From Coq Require Import Reals List Lia Lra Permutation Arith ZArith.
From Verif Require Import M_Reparam M_General S_General S_Mesh S_Orient L_Real L_BBox L_Point L_TensorNat L_Mesh L_Mesh2 L_Mesh3 L_Mesh5 L_Mesh7 L_Orient L_Orient2 L_Orient3 L_General4 L_Reparam L_Reparam2.
Import ListNotations.
Local Close Scope Z_scope. Local Close Scope R_scope. Local Open Scope nat_scope.

Lemma orient_cells_loop cheb fresh dim m ids : 2 <= m_order m -> exists decide, orient_cells_positively cheb fresh dim m ids = orient_loop dim decide 0 ids m.
Proof.
  intros Ho. unfold orient_cells_positively. fold (centre dim). rewrite (ders_eq cheb dim (m_order m) Ho (centre dim) (centre_length dim)). cbn [bind]. eexists. reflexivity.
Qed.
Lemma orient_with_loop cheb fresh dim m ids tg : 2 <= m_order m -> exists decide, orient_levelset_with cheb fresh dim m ids tg = orient_loop dim decide 0 ids m.
Proof.
  intros Ho. unfold orient_levelset_with. cbv zeta. fold (centre dim). rewrite (basis_eq_c cheb dim (m_order m) Ho (centre dim) (centre_length dim)). cbn [bind].
  rewrite (ders_eq cheb dim (m_order m) Ho (centre dim) (centre_length dim)). cbn [bind]. eexists. reflexivity.
Qed.
Lemma added_vm dim P m m1 np ni : vm dim m -> cells_added dim P m m1 np ni -> vm dim m1.
Proof.
  intros (Ho & (n & Hn) & (w & Hw) & Fc & Fw) (A & B & C & D & (k & E) & _ & G & _). unfold vm, valid. rewrite A, C, D. split; [exact Ho|]. split; [exists (n + k); rewrite app_length; lia|].
  split; [exists w; exact Hw|]. assert (L : length (m_points m) <= length (m_points m1)) by (rewrite B, app_length; lia). split.
  - apply Forall_app. split; [eapply Forall_impl; [|exact Fc]; cbn; intros; lia|eapply Forall_impl; [|exact G]; cbn; intros; lia].
  - eapply Forall_impl; [|exact Fw]. cbn. intros. lia.
Qed.
(** What an orientation step does to the mesh. *)
Definition reordered (dim n0 : nat) (m1 m2 : mesh) : Prop :=
  vm dim m2 /\ m_order m2 = m_order m1 /\ m_points m2 = m_points m1 /\ m_wires m2 = m_wires m1 /\ length (m_conn m2) = length (m_conn m1) /\
  (forall c, Permutation (group_ids (m_order m1 ^ dim) (m_conn m2) c) (group_ids (m_order m1 ^ dim) (m_conn m1) c)) /\
  (forall c, c < n0 -> group_ids (m_order m1 ^ dim) (m_conn m2) c = group_ids (m_order m1 ^ dim) (m_conn m1) c).
Lemma loop_reordered dim decide m1 n0 k : 1 <= dim -> vm dim m1 -> length (m_conn m1) = (n0 + k) * m_order m1 ^ dim ->
  exists m2, orient_loop dim decide 0 (seq n0 k) m1 = Ret m2 /\ reordered dim n0 m1 m2.
Proof.
  intros Hd V Hn. destruct (orient_loop_any dim decide (n0 + k) Hd (seq n0 k) 0 m1 V Hn) as (m2 & E & V2 & Eo & Ep & Ew & El & Pg & Pc).
  { apply Forall_forall. intros c Hc. apply in_seq in Hc. lia. }
  exists m2. split; [exact E|]. split; [exact V2|]. do 4 (split; [assumption|]). split; [exact Pg|]. intros c Hc. apply Pc. rewrite in_seq. lia.
Qed.
Lemma finish_ok dim range (P : list R -> Prop) phi tol dom m m1 m2 n0 np ni : range = 2 \/ range = 3 -> dim = 1 \/ dim = 2 \/ dim = 3 -> vm dim m -> rangem range m -> length (bmin dom) = range -> length (bmax dom) = range ->
  length (m_conn m) = n0 * m_order m ^ dim -> (forall p, P p -> length p = range) -> cells_added dim P m m1 np ni -> reordered dim n0 m1 m2 -> forall k, length ni = k * m_order m ^ dim ->
  exists m' ni' wi, wirebasket_phi phi range dim m2 (seq n0 k) dom tol = Ret m' /\ vm dim m' /\ rangem range m' /\ length ni' = length ni /\
    region_added dim range P phi tol dom m m' n0 k np ni' wi /\ m_points m' = m_points m2 /\ m_conn m' = m_conn m2.
Proof.
  intros Hr Hdim V Rm L1 L2 Hn HP (A & B & C & D & _ & F & G & I) (V2 & Eo & Ep & Ew & El & Pg & Pc) k Hk. set (N := m_order m ^ dim) in *. rewrite A in Pg, Pc. fold N in Pg, Pc.
  assert (Ln : length (m_conn m1) = (n0 + k) * N) by (rewrite C, app_length; lia).
  destruct (groups_split N n0 k (m_conn m1) (m_conn m2) Ln El Pg Pc) as [S1 S2].
  assert (Q : firstn (n0 * N) (m_conn m1) = m_conn m /\ skipn (n0 * N) (m_conn m1) = ni).
  { rewrite C, <- Hn, firstn_app, skipn_app, Nat.sub_diag, firstn_all, skipn_all. cbn [firstn skipn]. rewrite app_nil_r. split; reflexivity. }
  destruct Q as [Q1 Q2]. rewrite Q1 in S1. rewrite Q2 in S2. set (ni' := skipn (n0 * N) (m_conn m2)) in *.
  assert (Ec : m_conn m2 = m_conn m ++ ni') by (rewrite <- S1; symmetry; apply firstn_skipn).
  assert (Nd : NoDup ni') by (eapply Permutation_NoDup; [symmetry; exact S2|exact F]).
  assert (Rm2 : rangem range m2) by (unfold rangem; rewrite Ep, B; apply Forall_app; split; [exact Rm|eapply Forall_impl; [exact HP|exact I]]).
  assert (Eom : m_order m2 = m_order m) by congruence.
  destruct (wb_ok range dim phi tol dom m2 n0 k Hr Hdim V2) as (m' & wi & E & V' & Eo' & Ep' & Ec' & Ew' & W).
  - rewrite Eom. fold N. rewrite El. exact Ln.
  - rewrite Eom. exact Nd.
  - exact Rm2.
  - exact L1.
  - exact L2.
  - exists m', ni', wi. split; [exact E|]. split; [exact V'|]. split; [unfold rangem; rewrite Ep'; exact Rm2|]. split; [apply Permutation_length; exact S2|]. split; [|split; assumption].
    split; [congruence|]. split; [congruence|]. split; [congruence|]. split; [congruence|]. split; [rewrite (Permutation_length S2); exact Hk|]. split; [exact Nd|]. split; [|split; [exact I|exact W]].
    rewrite Ep', Ep. eapply Permutation_Forall; [symmetry; exact S2|exact G].
Qed.
(** The whole function, for any initial content of the points used by the orientation. *)
Lemma general_ok O grad fresh range (S : bool) m n0 dom : range = 2 \/ range = 3 -> sound O range -> large_box range dom -> vm (mesh_dim range S) m -> rangem range m ->
  length (m_conn m) = n0 * m_order m ^ mesh_dim range S ->
  exists m' m1 k np ni wi, reparam_general O grad fresh range S m dom = Ret m' /\ vm (mesh_dim range S) m' /\ rangem range m' /\
    region_added (mesh_dim range S) range (in_box dom) (o_phi O) reparam_tol dom m m' n0 k np ni wi /\ (S = false -> length np = k * m_order m ^ range) /\
    vm (mesh_dim range S) m1 /\ rangem range m1 /\ m_order m1 = m_order m /\ length (m_conn m1) = (n0 + k) * m_order m ^ mesh_dim range S /\
    exists m2, orient_new O grad fresh range S m1 (seq n0 k) = Ret m2 /\ m_points m' = m_points m2 /\ m_conn m' = m_conn m2.
Proof.
  intros Hr HO HL V Rm Hn. set (dim := mesh_dim range S) in *.
  destruct (reparam_cells_ok O range S m n0 dom Hr HO HL (proj1 V) Hn) as (m1 & np & ni & E1 & CA & Hex). fold dim in CA.
  pose proof (added_vm dim _ m m1 np ni V CA) as V1. assert (CA' := CA). destruct CA' as (A & B & C & D & (k & Hk) & F & G & I).
  assert (HPb : forall p, in_box dom p -> length p = range) by (intros p [Lp _]; rewrite Lp; apply HL).
  assert (Rm1 : rangem range m1) by (unfold rangem; rewrite B; apply Forall_app; split; [exact Rm|eapply Forall_impl; [exact HPb|exact I]]).
  assert (Ln : length (m_conn m1) = (n0 + k) * m_order m1 ^ dim) by (rewrite A, C, app_length; lia).
  assert (Hdim : dim = 1 \/ dim = 2 \/ dim = 3) by (unfold dim, mesh_dim; destruct S; lia).
  assert (HL' : exists decide, orient_new O grad fresh range S m1 (seq n0 k) = orient_loop dim decide 0 (seq n0 k) m1).
  { unfold orient_new, dim, mesh_dim. destruct S; [apply orient_with_loop|apply orient_cells_loop]; apply V1. }
  destruct HL' as (decide & EL). destruct (loop_reordered dim decide m1 n0 k ltac:(lia) V1 Ln) as (m2 & E2 & Re).
  destruct (finish_ok dim range (in_box dom) (o_phi O) reparam_tol dom m m1 m2 n0 np ni Hr Hdim V Rm (proj1 HL) (proj1 (proj2 HL)) Hn HPb CA Re k Hk) as (m' & ni' & wi & E3 & V' & Rm' & Ln' & RA & Ep & Ec).
  exists m', m1, k, np, ni', wi. split; [|split; [exact V'|split; [exact Rm'|split; [exact RA|split; [|split; [exact V1|split; [exact Rm1|split; [exact A|split; [rewrite <- A; exact Ln|]]]]]]]]].
  - unfold reparam_general. fold dim. rewrite (num_cells_ok dim m n0) by (assumption || (unfold pts_per_cell; apply pow_pos; apply V)). cbn [bind]. rewrite E1. cbn [bind].
    rewrite (num_cells_ok dim m1 (n0 + k)) by (assumption || (unfold pts_per_cell; apply pow_pos; apply V1)). cbn [bind]. replace (n0 + k - n0) with k by lia. rewrite EL, E2. cbn [bind]. exact E3.
  - intros ES. rewrite <- (Hex ES), Hk. unfold dim. rewrite ES. reflexivity.
  - exists m2. rewrite EL. auto.
Qed.
Lemma facet_ok O fresh range c s m n0 dom : range = 2 \/ range = 3 -> c < range -> s < 2 -> sound O range -> large_box range dom -> vm (range - 1) m -> rangem range m ->
  length (m_conn m) = n0 * m_order m ^ (range - 1) ->
  let facet := (2 * Z.of_nat c + Z.of_nat s)%Z in
  exists m' m1 k np ni wi, reparam_general_facet O fresh range facet m dom = Ret m' /\ vm (range - 1) m' /\ rangem range m' /\
    region_added (range - 1) range (fun x => in_box dom x /\ nth c x 0%R = nth c (if s =? 0 then bmin dom else bmax dom) 0%R) (o_phi O) reparam_tol dom m m' n0 k np ni wi /\ length np = k * m_order m ^ (range - 1) /\
    vm (range - 1) m1 /\ rangem range m1 /\ m_order m1 = m_order m /\ length (m_conn m1) = (n0 + k) * m_order m ^ (range - 1) /\
    exists m2, orient_facet (o_cheb O) fresh (range - 1) m1 facet (seq n0 k) = Ret m2 /\ m_points m' = m_points m2 /\ m_conn m' = m_conn m2.
Proof.
  intros Hr Hc Hs HO HL V Rm Hn facet. set (dim := range - 1) in *.
  destruct (reparam_facet_ok O range c s m n0 dom Hr Hc Hs HO HL (proj1 V) Hn) as (m1 & np & ni & E1 & CA0 & Hex). fold dim facet in CA0, E1.
  assert (CA : cells_added dim (fun x => in_box dom x /\ nth c x 0%R = nth c (if s =? 0 then bmin dom else bmax dom) 0%R) m m1 np ni).
  { eapply added_weaken; [|exact CA0]. intros x [Hx1 Hx2]. split; [exact Hx1|]. rewrite Hx2. unfold side_of, lo, hi. destruct (s =? 0); reflexivity. } clear CA0.
  pose proof (added_vm dim _ m m1 np ni V CA) as V1. assert (CA' := CA). destruct CA' as (A & B & C & D & (k & Hk) & F & G & I).
  assert (HPb : forall p, in_box dom p /\ nth c p 0%R = nth c (if s =? 0 then bmin dom else bmax dom) 0%R -> length p = range) by (intros p [[Lp _] _]; rewrite Lp; apply HL).
  assert (Rm1 : rangem range m1) by (unfold rangem; rewrite B; apply Forall_app; split; [exact Rm|eapply Forall_impl; [exact HPb|exact I]]).
  assert (Ln : length (m_conn m1) = (n0 + k) * m_order m1 ^ dim) by (rewrite A, C, app_length; lia).
  assert (Hdim : dim = 1 \/ dim = 2 \/ dim = 3) by (unfold dim; lia).
  assert (HL' : exists decide, orient_facet (o_cheb O) fresh dim m1 facet (seq n0 k) = orient_loop dim decide 0 (seq n0 k) m1).
  { unfold orient_facet, facet_const_dir, facet_side, facet. rewrite !assert_true by (apply andb_true_intro; split; [apply Z.leb_le|apply Z.ltb_lt]; unfold dim; lia). cbn [bind]. apply orient_with_loop. apply V1. }
  destruct HL' as (decide & EL). destruct (loop_reordered dim decide m1 n0 k ltac:(lia) V1 Ln) as (m2 & E2 & Re).
  destruct (finish_ok dim range _ (o_phi O) reparam_tol dom m m1 m2 n0 np ni Hr Hdim V Rm (proj1 HL) (proj1 (proj2 HL)) Hn HPb CA Re k Hk) as (m' & ni' & wi & E3 & V' & Rm' & Ln' & RA & Ep & Ec).
  exists m', m1, k, np, ni', wi. split; [|split; [exact V'|split; [exact Rm'|split; [exact RA|split; [|split; [exact V1|split; [exact Rm1|split; [exact A|split; [rewrite <- A; exact Ln|]]]]]]]]].
  - unfold reparam_general_facet. fold dim. rewrite (num_cells_ok dim m n0) by (assumption || (unfold pts_per_cell; apply pow_pos; apply V)). cbn [bind]. rewrite E1. cbn [bind].
    rewrite (num_cells_ok dim m1 (n0 + k)) by (assumption || (unfold pts_per_cell; apply pow_pos; apply V1)). cbn [bind]. replace (n0 + k - n0) with k by lia. rewrite EL, E2. cbn [bind]. exact E3.
  - rewrite <- Hex, Hk. reflexivity.
  - exists m2. rewrite EL. auto.
Qed.
