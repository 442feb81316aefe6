(** Lemmas for the complete reparameterization of a box: orientation and wirebasket of the new cells. *)
From Coq Require Import Reals List Lia Lra Permutation Arith ZArith.
From Verif Require Import M_Reparam M_General S_General S_Mesh S_Orient L_Real L_BBox L_Point L_TensorNat L_Mesh L_Mesh2 L_Mesh3 L_Mesh5 L_Mesh7 L_Orient L_Orient2 L_Orient3 L_General4.
Import ListNotations.
Local Close Scope Z_scope. Local Close Scope R_scope. Local Open Scope nat_scope.

Lemma permute_groups dim m n cell m' : 1 <= dim -> vm dim m -> length (m_conn m) = n * m_order m ^ dim -> cell < n -> permute_cell_directions dim m cell = Ret m' ->
  forall c, Permutation (group_ids (m_order m ^ dim) (m_conn m') c) (group_ids (m_order m ^ dim) (m_conn m) c).
Proof.
  intros Hd Hv Hn Hc E c. destruct (C48_proof dim m n cell Hd Hv Hn) as [P _]. destruct (P Hc) as (m1 & E1 & _ & _ & _ & _ & Pt & Pc & _). rewrite E in E1. injection E1 as <-.
  destruct (Nat.eq_dec c cell) as [->|Hne]; [|rewrite Pc by assumption; reflexivity].
  unfold group_ids. rewrite seq_T, !map_map. set (g := fun t => nth (cell * m_order m ^ dim + position (m_order m) t) (m_conn m) 0).
  rewrite (map_ext_in _ (fun t => g (flip (m_order m) t))); [|intros t Ht; apply Pt; apply T_is_index; exact Ht].
  rewrite <- (map_map (flip (m_order m)) g). apply Permutation_map. apply flip_perm.
Qed.
Lemma orient_loop_any dim decide n : 1 <= dim -> forall ids k m, vm dim m -> length (m_conn m) = n * m_order m ^ dim -> Forall (fun c => c < n) ids ->
  exists m', orient_loop dim decide k ids m = Ret m' /\ vm dim m' /\ m_order m' = m_order m /\ m_points m' = m_points m /\ m_wires m' = m_wires m /\
    length (m_conn m') = length (m_conn m) /\ (forall c, Permutation (group_ids (m_order m ^ dim) (m_conn m') c) (group_ids (m_order m ^ dim) (m_conn m) c)) /\
    (forall c, ~ In c ids -> group_ids (m_order m ^ dim) (m_conn m') c = group_ids (m_order m ^ dim) (m_conn m) c).
Proof.
  intros Hd. induction ids as [|c ids IH]; intros k m V Hn F; cbn [orient_loop].
  - exists m. split; [reflexivity|]. split; [exact V|]. repeat (split; [reflexivity|]). split; intros; reflexivity.
  - inversion F as [|? ? Hc F']; subst. rewrite (num_cells_ok dim m n) by (assumption || (unfold pts_per_cell; apply pow_pos; apply V)). cbn [bind].
    rewrite assert_true by (apply Nat.ltb_lt; assumption). rewrite (cell_points_ok dim m n c V Hn Hc). cbn [bind].
    destruct (decide k (gp dim m c)).
    + destruct (proj1 (C48_proof dim m n c Hd V Hn) Hc) as (m1 & E1 & _). rewrite E1. cbn [bind].
      destruct (permute_vm dim m n c m1 Hd V Hn Hc E1) as (V1 & Eo & Ep & Ew & El & Pc & _). pose proof (permute_groups dim m n c m1 Hd V Hn Hc E1) as Pg.
      destruct (IH (S k) m1 V1) as (m2 & E2 & V2 & Eo2 & Ep2 & Ew2 & El2 & Pg2 & Pc2); [congruence|assumption|]. rewrite E2. rewrite Eo in Pg2, Pc2.
      exists m2. split; [reflexivity|]. split; [exact V2|]. do 4 (split; [congruence|]). split.
      * intros d. rewrite Pg2. apply Pg.
      * intros d Hd'. rewrite Pc2 by (intros H; apply Hd'; right; exact H). apply Pc. intros ->. apply Hd'. left. reflexivity.
    + cbn [bind]. destruct (IH (S k) m V Hn F') as (m2 & E2 & V2 & Eo2 & Ep2 & Ew2 & El2 & Pg2 & Pc2). exists m2. rewrite E2. split; [reflexivity|]. do 6 (split; [assumption|]).
      intros d Hd'. apply Pc2. intros H. apply Hd'. right. exact H.
Qed.

Lemma nth_skipn_c {A} (d : A) N : forall l k, nth k (skipn N l) d = nth (N + k) l d.
Proof. induction N as [|N IH]; intros l k; [reflexivity|]. destruct l as [|x l]; [destruct k; reflexivity|]. apply IH. Qed.
Lemma nth_firstn_c {A} (d : A) N : forall l k, k < N -> nth k (firstn N l) d = nth k l d.
Proof. induction N as [|N IH]; intros l k Hk; [lia|]. destruct l as [|x l]; [reflexivity|]. destruct k as [|k]; [reflexivity|]. cbn [firstn nth]. apply IH. lia. Qed.
Lemma groups_all N : forall n conn, length conn = n * N -> concat (map (group_ids N conn) (seq 0 n)) = conn.
Proof.
  induction n as [|n IH]; intros conn L; [destruct conn; [reflexivity|discriminate]|]. cbn [seq map concat]. cbn [Nat.mul] in L.
  rewrite <- seq_shift, map_map. assert (H : forall k, nth k (skipn N conn) 0 = nth (N + k) conn 0) by (intros k; apply nth_skipn_c).
  rewrite (map_ext _ (group_ids N (skipn N conn))).
  - rewrite IH by (rewrite skipn_length; lia). rewrite <- (firstn_skipn N conn) at 3. f_equal. unfold group_ids. rewrite Nat.mul_0_l.
    apply nth_ext with (d := 0) (d' := 0); [rewrite map_length, seq_length, firstn_length; lia|]. intros k Hk. rewrite map_length, seq_length in Hk.
    rewrite (nth_indep _ 0 (nth (0 + 0) conn 0)) by (rewrite map_length, seq_length; assumption). rewrite (map_nth (fun k => nth (0 + k) conn 0)), seq_nth by assumption. cbn [Nat.add]. rewrite nth_firstn_c by assumption. reflexivity.
  - intros c. unfold group_ids. apply map_ext. intros k. rewrite H. f_equal. lia.
Qed.
Lemma groups_split N n0 k conn conn' : length conn = (n0 + k) * N -> length conn' = length conn -> 
  (forall c, Permutation (group_ids N conn' c) (group_ids N conn c)) -> (forall c, c < n0 -> group_ids N conn' c = group_ids N conn c) ->
  firstn (n0 * N) conn' = firstn (n0 * N) conn /\ Permutation (skipn (n0 * N) conn') (skipn (n0 * N) conn).
Proof.
  intros L L' Pg Pc. assert (G : forall cc, length cc = (n0 + k) * N -> firstn (n0 * N) cc = concat (map (group_ids N cc) (seq 0 n0)) /\ skipn (n0 * N) cc = concat (map (group_ids N cc) (seq n0 k))).
  { intros cc Lc. assert (H := groups_all N (n0 + k) cc Lc). rewrite seq_app, map_app, concat_app in H. cbn [Nat.add] in H.
    assert (L1 : length (concat (map (group_ids N cc) (seq 0 n0))) = n0 * N).
    { clear. generalize 0. induction n0 as [|n IH]; intros s; [reflexivity|]. cbn [seq map concat]. rewrite app_length, IH. unfold group_ids. rewrite map_length, seq_length. lia. }
    assert (Q : forall a b, a ++ b = cc -> length a = n0 * N -> firstn (n0 * N) cc = a /\ skipn (n0 * N) cc = b).
    { intros a b <- <-. rewrite firstn_app, skipn_app, Nat.sub_diag, firstn_all, skipn_all. cbn [firstn skipn]. rewrite app_nil_r. split; reflexivity. }
    apply Q; assumption. }
  destruct (G conn L) as [A B]. destruct (G conn' (eq_trans L' L)) as [A' B']. rewrite A, B, A', B'. split.
  - f_equal. apply map_ext_in. intros c Hc. apply in_seq in Hc. apply Pc. lia.
  - clear - Pg. generalize n0. induction k as [|k IH]; intros s; [reflexivity|]. cbn [seq map concat]. apply Permutation_app; [apply Pg|apply IH].
Qed.

Lemma sort_edge_nodup order l : 2 <= order -> length l = order -> NoDup l -> sort_edge_points order l = if last l 0 <? hd 0 l then rev l else l.
Proof.
  intros Ho Hl Hn. unfold sort_edge_points. replace (hd 0 l =? last l 0) with false; [reflexivity|]. symmetry. apply Nat.eqb_neq.
  destruct l as [|a l]; [cbn in Hl; lia|]. destruct l as [|b l] using rev_ind; [cbn in Hl; lia|]. rewrite app_comm_cons, last_last. cbn [hd app]. intros ->. inversion Hn as [|? ? N _]. apply N. apply in_or_app. right. left. reflexivity.
Qed.
Lemma vanishes_ok phi tol p : on_levelset phi tol p = vanishes phi tol p.
Proof. unfold on_levelset, vanishes, is_zero. destruct (Rle_dec (Rabs (phi p)) tol); [apply Rleb_true; assumption|apply Rleb_false; lra]. Qed.
Lemma wire_edge_ext range tol lo hi cf ci cf' ci' ps : (forall p, cf p = cf' p) -> (forall p, ci p = ci' p) -> wire_edge range tol lo hi cf ci ps <-> wire_edge range tol lo hi cf' ci' ps.
Proof.
  intros H1 H2. assert (A : (forall p, In p ps -> cf p = true) <-> (forall p, In p ps -> cf' p = true)) by (split; intros H p Hp; specialize (H p Hp); congruence).
  assert (B : (forall p, In p ps -> ci p = true) <-> (forall p, In p ps -> ci' p = true)) by (split; intros H p Hp; specialize (H p Hp); congruence).
  unfold wire_edge. rewrite A, B. reflexivity.
Qed.
Lemma edge_point_inj dim o e i j : dim = 2 \/ dim = 3 -> edge_point dim o e i = edge_point dim o e j -> i = j.
Proof. intros [-> | ->]; unfold edge_point; repeat match goal with |- context [if ?b then _ else _] => destruct b end; intros [=]; assumption. Qed.
Lemma edge_ids_ok dim m n0 k c e : dim = 2 \/ dim = 3 -> 2 <= m_order m -> length (m_conn m) = (n0 + k) * m_order m ^ dim -> NoDup (skipn (n0 * m_order m ^ dim) (m_conn m)) ->
  n0 <= c < n0 + k -> e < edge_count dim -> get_edge_points dim m c (Z.of_nat e) = Ret (edge_ids dim m (c, e)).
Proof.
  intros Hd Ho Hn Hnd Hc He. set (N := m_order m ^ dim) in *. rewrite (get_edge_points_ok dim m c e Hd Ho He) by (fold N; nia). f_equal. unfold edge_ids. cbn [fst snd]. fold N.
  apply sort_edge_nodup; [assumption|rewrite map_length, seq_length; reflexivity|]. apply nodup_map_in; [|apply seq_NoDup]. intros i j Hi Hj E. apply in_seq in Hi, Hj.
  assert (I : forall i, i < m_order m -> is_index dim (m_order m) (edge_point dim (m_order m) e i)) by (intros x Hx; apply is_index_all; apply edge_point_in; assumption).
  pose proof (I i ltac:(lia)) as Ii. pose proof (I j ltac:(lia)) as Ij. pose proof (position_lt _ _ _ Ii) as Pi. pose proof (position_lt _ _ _ Ij) as Pj. fold N in Pi, Pj.
  assert (Q : forall p, nth (c * N + p) (m_conn m) 0 = nth ((c - n0) * N + p) (skipn (n0 * N) (m_conn m)) 0) by (intros p; rewrite nth_skipn_c; f_equal; nia).
  rewrite !Q in E. rewrite NoDup_nth in Hnd. apply Hnd in E; [|rewrite skipn_length, Hn; nia|rewrite skipn_length, Hn; nia].
  apply (edge_point_inj dim (m_order m) e i j Hd). eapply position_inj; [exact Ii|exact Ij|]. lia.
Qed.
Lemma wb_ok range dim phi tol dom m n0 k : range = 2 \/ range = 3 -> dim = 1 \/ dim = 2 \/ dim = 3 -> vm dim m -> length (m_conn m) = (n0 + k) * m_order m ^ dim ->
  NoDup (skipn (n0 * m_order m ^ dim) (m_conn m)) -> rangem range m -> length (bmin dom) = range -> length (bmax dom) = range ->
  exists m' wi, wirebasket_phi phi range dim m (seq n0 k) dom tol = Ret m' /\ vm dim m' /\ m_order m' = m_order m /\ m_points m' = m_points m /\ m_conn m' = m_conn m /\ m_wires m' = m_wires m ++ wi /\
    wires_of dim range phi tol dom m' n0 k wi.
Proof.
  intros Hr Hdim V Hn Hnd Hp L1 L2. unfold wirebasket_phi. destruct (Nat.ltb_spec 1 dim) as [H1|H1].
  2:{ exists m, []. split; [reflexivity|]. split; [exact V|]. do 3 (split; [reflexivity|]). split; [rewrite app_nil_r; reflexivity|]. exists []. split; [reflexivity|]. split; [constructor|].
      intros c e. split; [intros []|]. intros [H _]. lia. }
  assert (Hd : dim = 2 \/ dim = 3) by lia. set (edges := flat_map _ _).
  assert (Ie : forall c e, In (c, e) edges <-> (n0 <= c < n0 + k /\ e < edge_count dim)).
  { intros c e. unfold edges. rewrite in_flat_map. split.
    - intros (c' & Hc & He). apply in_map_iff in He as (e' & [= <- <-] & He). apply in_seq in Hc, He. split; [lia|]. apply He.
    - intros [Hc He]. exists c. split; [apply in_seq; lia|]. apply in_map. apply in_seq. split; [lia|]. apply He. }
  assert (Nd : NoDup edges).
  { unfold edges. clear. generalize (seq_NoDup k n0). induction (seq n0 k) as [|c l IH]; intros Hl; [constructor|]. inversion Hl as [|? ? Hc Hl']; subst. cbn [flat_map]. apply nodup_append.
    - apply nodup_map_in; [|apply seq_NoDup]. intros a b _ _ [=]. assumption.
    - apply IH. assumption.
    - intros [c' e'] H H'. apply in_map_iff in H as (e'' & [= <- <-] & _). apply in_flat_map in H' as (c'' & Hc'' & H''). apply in_map_iff in H'' as (? & [= -> _] & _). contradiction. }
  destruct (gwb_ok range dim dom tol (on_levelset phi tol) (fun p => (range - 1 <=? 1) && on_levelset phi tol p)%bool edges Hd m V Hp L1 L2) as (chosen & E & (sel & Es & Hs) & Hg).
  { apply Forall_forall. intros [c e] H. apply Ie in H as [Hc He]. cbn [fst snd]. split; [rewrite Hn; nia|exact He]. }
  eexists _, _. split; [exact E|]. cbn [m_order m_points m_conn m_wires].
  assert (Eq : concat (map snd chosen) = concat (map (edge_ids dim m) (map fst chosen))).
  { rewrite map_map. f_equal. apply map_ext_in. intros [[c e] ids] Hin. cbn [fst snd].
    assert (Hin2 : In (c, e) edges). { apply (in_map fst) in Hin. cbn [fst] in Hin. rewrite Es in Hin. apply filter_In in Hin. apply Hin. }
    apply Ie in Hin2 as [Hc He]. specialize (Hg _ _ Hin). cbn [fst snd] in Hg. rewrite (edge_ids_ok dim m n0 k c e Hd (proj1 V) Hn Hnd Hc He) in Hg. congruence. }
  split; [|split; [reflexivity|split; [reflexivity|split; [reflexivity|split; [reflexivity|]]]]].
  - destruct V as (Ho & Hc & (nw & Hw) & Fc & Fw). split; [exact Ho|]. split; [exact Hc|]. cbn [m_order m_points m_conn m_wires].
    assert (G : forall ce ids, In (ce, ids) chosen -> length ids = m_order m /\ Forall (fun i => i < length (m_points m)) ids).
    { intros ce ids Hin. destruct (get_edge_points_len dim m _ _ ids Hd Ho (Hg _ _ Hin)) as [Li Fi]. split; [exact Li|]. apply Fi. exact Fc. }
    split; [|split; [exact Fc|]].
    + exists (nw + length chosen). rewrite app_length, Hw. rewrite Nat.mul_add_distr_r. f_equal. clear - G. induction chosen as [|[ce ids] l IH]; [reflexivity|]. cbn [map concat snd length Nat.mul]. rewrite app_length.
      rewrite (proj1 (G ce ids (or_introl eq_refl))), IH; [reflexivity|]. intros; eapply G; right; eassumption.
    + apply Forall_app. split; [exact Fw|]. clear - G. induction chosen as [|[ce ids] l IH]; [constructor|]. cbn [map concat snd]. apply Forall_app. split; [apply (G ce ids); left; reflexivity|apply IH]. intros; eapply G; right; eassumption.
  - exists (map fst chosen). split; [exact Eq|]. split; [rewrite Es; apply NoDup_filter; exact Nd|]. intros c e. rewrite Es, filter_In, Ie. split.
    + intros [[Hc He] Hsel]. split; [exact H1|]. split; [exact Hc|]. split; [exact He|]. apply (Hs (c, e) _ (proj2 (Ie c e) (conj Hc He)) (edge_ids_ok dim m n0 k c e Hd (proj1 V) Hn Hnd Hc He)) in Hsel.
      eapply wire_edge_ext; [| |exact Hsel]; intros p; rewrite ?vanishes_ok; [reflexivity|]. destruct Hr as [-> | ->]; reflexivity.
    + intros (_ & Hc & He & Hw). split; [auto|]. apply (Hs (c, e) _ (proj2 (Ie c e) (conj Hc He)) (edge_ids_ok dim m n0 k c e Hd (proj1 V) Hn Hnd Hc He)).
      eapply wire_edge_ext; [| |exact Hw]; intros p; rewrite ?vanishes_ok; [reflexivity|]. destruct Hr as [-> | ->]; reflexivity.
Qed.
