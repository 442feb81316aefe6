(** The loop over the cells; the geometry of cells. *)
From Coq Require Import Reals List Lia Lra Arith Permutation.
From Coquelicot Require Import Coquelicot.
From Verif Require Import M_Orient S_Orient S_Lagrange S_Mesh S_Affine L_Real L_Point L_BBox L_TensorNat L_Poly L_Poly2 L_Poly3 L_Poly4 L_Poly5 L_Poly6 L_Poly8 L_Lagrange.
From Verif Require Import L_Mesh L_Mesh2 L_Mesh3 L_Mesh5.
Import ListNotations.
Local Close Scope Z_scope. Local Close Scope R_scope. Local Open Scope nat_scope.

(** ** cells of a mesh *)
Definition vm (dim : nat) (m : mesh) : Prop := valid dim (m_order m) (m_points m) (m_conn m) (m_wires m).
Definition gp (dim : nat) (m : mesh) (c : nat) : list (list R) := group_points (m_order m ^ dim) (m_points m) (m_conn m) c.
Lemma mesh_mapM_ok {A B} (f : A -> outcome B) (g : A -> B) l : (forall a, In a l -> f a = Ret (g a)) -> M_Mesh.mapM f l = Ret (map g l).
Proof. induction l as [|a l IH]; intros H; [reflexivity|]. cbn [M_Mesh.mapM map]. rewrite (H a) by (left; auto). cbn [bind]. rewrite IH by (intros; apply H; right; auto). reflexivity. Qed.
Lemma at_ret {A} (l : list A) i d : i < length l -> M_Mesh.at_ l i = Ret (nth i l d).
Proof. intros H. unfold M_Mesh.at_. rewrite (nth_error_nth' l d H). reflexivity. Qed.
Lemma cell_points_ok dim m n c : vm dim m -> length (m_conn m) = n * m_order m ^ dim -> c < n -> cell_points dim m c = Ret (gp dim m c).
Proof.
  intros (Ho & _ & _ & Fc & _) Hn Hc. unfold cell_points, gp, group_points, pts_per_cell. apply mesh_mapM_ok. intros k Hk. apply in_seq in Hk.
  assert (c * m_order m ^ dim + k < length (m_conn m)) as Hb by nia. rewrite (at_ret _ _ 0) by assumption. cbn [bind]. apply at_ret.
  rewrite Forall_forall in Fc. apply Fc, nth_In. assumption.
Qed.
(** The points of a cell with permuted directions. *)
Definition flip_pts (dim n : nat) (pts : list (list R)) : list (list R) -> Prop := fun q =>
  length q = n ^ dim /\ forall t, is_index dim n t -> nth (position n t) q [] = nth (position n (flip n t)) pts [].
Lemma gp_nth dim m c k : k < m_order m ^ dim -> nth k (gp dim m c) [] = nth (nth (c * m_order m ^ dim + k) (m_conn m) 0) (m_points m) [].
Proof. intros Hk. unfold gp, group_points. rewrite (map_seq_nth_gen _ 0 _ k []) by assumption. reflexivity. Qed.
Lemma permute_vm dim m n cell m' : 1 <= dim -> vm dim m -> length (m_conn m) = n * m_order m ^ dim -> cell < n -> permute_cell_directions dim m cell = Ret m' ->
  vm dim m' /\ m_order m' = m_order m /\ m_points m' = m_points m /\ m_wires m' = m_wires m /\ length (m_conn m') = length (m_conn m) /\
  (forall c, c <> cell -> group_ids (m_order m ^ dim) (m_conn m') c = group_ids (m_order m ^ dim) (m_conn m) c) /\
  flip_pts dim (m_order m) (gp dim m cell) (gp dim m' cell).
Proof.
  intros Hd Hv Hn Hc E. destruct (C48_proof dim m n cell Hd Hv Hn) as [P _]. destruct (P Hc) as (m1 & E1 & Eo & Ep & Ew & El & Pt & Pc & _). rewrite E in E1. injection E1 as <-.
  destruct Hv as (Ho & (nc & Hnc) & Hw & Fc & Fw).
  assert (Pp : 0 < m_order m ^ dim) by (apply Nat.neq_0_lt_0, Nat.pow_nonzero; lia).
  split; [|split; [assumption|split; [assumption|split; [assumption|split; [assumption|split; [assumption|]]]]]].
  - unfold vm, valid. rewrite Eo, Ep, Ew. split; [assumption|]. split; [exists nc; congruence|]. split; [assumption|]. split; [|assumption].
    apply Forall_forall. intros i Hi. apply (In_nth _ _ 0) in Hi. destruct Hi as (k & Hk & <-). rewrite Forall_forall in Fc.
    set (N := m_order m ^ dim) in *. set (c := k / N). assert (Ek : k = c * N + k mod N) by (unfold c; rewrite Nat.mul_comm; apply Nat.div_mod; lia).
    assert (Hm : k mod N < N) by (apply Nat.mod_upper_bound; lia). rewrite El in Hk.
    destruct (Nat.eq_dec c cell) as [Hcc|Hcc].
    + destruct (position_surj dim (m_order m) (k mod N)) as (t & Ht & Et); [exact Hm|]. rewrite Ek, Hcc, <- Et, Pt by assumption. apply Fc, nth_In.
      pose proof (position_lt dim (m_order m) _ (flip_index _ _ _ Ht)). fold N in H. nia.
    + specialize (Pc c Hcc). apply (f_equal (fun l => nth (k mod N) l 0)) in Pc. unfold group_ids in Pc.
      rewrite !(map_seq_nth_gen _ 0 N (k mod N) 0) in Pc by assumption. rewrite !Nat.add_0_l, <- Ek in Pc. rewrite Pc. apply Fc, nth_In. assumption.
  - split; [unfold gp, group_points; rewrite map_length, seq_length, Eo; reflexivity|]. intros t Ht.
    pose proof (position_lt dim (m_order m) t Ht). pose proof (position_lt dim (m_order m) _ (flip_index _ _ _ Ht)).
    rewrite gp_nth by (rewrite Eo; assumption). rewrite gp_nth by assumption. rewrite Eo, Ep, Pt by assumption. reflexivity.
Qed.
Section Loop.
Context (dim : nat) (Hd : 1 <= dim) (n o : nat) (P0 : list (list R)) (decide : nat -> list (list R) -> bool) (dec : list (list R) -> bool).
Definition okm (m : mesh) : Prop := vm dim m /\ m_order m = o /\ m_points m = P0 /\ length (m_conn m) = n * o ^ dim.
Definition same_but (ids : list nat) (m m' : mesh) : Prop :=
  m_wires m' = m_wires m /\ forall c, ~ In c ids -> group_ids (o ^ dim) (m_conn m') c = group_ids (o ^ dim) (m_conn m) c.
Lemma same_but_refl ids m : same_but ids m m. Proof. unfold same_but. auto. Qed.
Lemma gp_same ids m m' c : okm m -> okm m' -> same_but ids m m' -> ~ In c ids -> gp dim m' c = gp dim m c.
Proof. intros (_ & E1 & P1 & _) (_ & E2 & P2 & _) (_ & H) Hc. unfold gp. rewrite !group_points_ids, E1, E2, P1, P2, H by assumption. reflexivity. Qed.
(** when the test does not depend on the visit and fails after a permutation *)
Context (Hdec : forall k m c, okm m -> c < n -> decide k (gp dim m c) = dec (gp dim m c)).
Context (Hflip : forall m c m', okm m -> okm m' -> c < n -> dec (gp dim m c) = true -> flip_pts dim o (gp dim m c) (gp dim m' c) -> dec (gp dim m' c) = false).
Lemma loop_step k c ids m : okm m -> c < n ->
  exists m1, orient_loop dim decide k (c :: ids) m = orient_loop dim decide (S k) ids m1 /\ okm m1 /\ same_but [c] m m1 /\
    dec (gp dim m1 c) = false /\ (dec (gp dim m c) = false -> m1 = m) /\ (dec (gp dim m c) = true -> flip_pts dim o (gp dim m c) (gp dim m1 c)).
Proof.
  intros Hm Hc. assert (Hm' := Hm). destruct Hm' as (Hv & Eo & Ep & Hn). assert (Pp : 0 < m_order m ^ dim) by (destruct Hv; apply Nat.neq_0_lt_0, Nat.pow_nonzero; lia).
  cbn [orient_loop]. rewrite (num_cells_ok dim m n) by (unfold pts_per_cell; rewrite Eo in *; auto). cbn [bind]. rewrite assert_true by (apply Nat.ltb_lt; assumption).
  rewrite (cell_points_ok dim m n) by (rewrite ?Eo; assumption). cbn [bind]. rewrite Hdec by assumption. destruct (dec (gp dim m c)) eqn:D.
  - assert (Hn' : length (m_conn m) = n * m_order m ^ dim) by (rewrite Eo; assumption).
    destruct (C48_proof dim m n c Hd Hv Hn') as [P _]. destruct (P Hc) as (m1 & E1 & _). rewrite E1. cbn [bind]. exists m1.
    destruct (permute_vm dim m n c m1 Hd Hv Hn' Hc E1) as (V1 & Eo1 & Ep1 & Ew & El & Pc & Pf). rewrite Eo in *.
    assert (O1 : okm m1) by (split; [assumption|split; [assumption|split; congruence]]).
    split; [reflexivity|]. split; [assumption|]. split; [split; [assumption|]; intros c' Hc'; apply Pc; intros ->; apply Hc'; left; reflexivity|].
    split; [exact (Hflip m c m1 Hm O1 Hc D Pf)|]. split; [intros; congruence|intros _; exact Pf].
  - cbn [bind]. exists m. split; [reflexivity|]. split; [assumption|]. split; [apply same_but_refl|]. split; [assumption|]. split; [reflexivity|intros; congruence].
Qed.
Lemma loop_ok ids : forall k m, okm m -> Forall (fun c => c < n) ids ->
  exists m', orient_loop dim decide k ids m = Ret m' /\ okm m' /\ same_but ids m m' /\
    (forall c, c < n -> dec (gp dim m c) = false -> gp dim m' c = gp dim m c) /\ (forall c, In c ids -> dec (gp dim m' c) = false) /\
    (forall c, In c ids -> dec (gp dim m c) = true -> flip_pts dim o (gp dim m c) (gp dim m' c)).
Proof.
  induction ids as [|c ids IH]; intros k m Hm F.
  - exists m. split; [reflexivity|]. split; [assumption|]. split; [apply same_but_refl|]. split; [reflexivity|]. split; intros ? [].
  - inversion F; subst. destruct (loop_step k c ids m Hm H1) as (m1 & E & O1 & S1 & D1 & N1 & F1).
    destruct (IH (S k) m1 O1 H2) as (m' & E' & O' & S' & K' & D' & F'). exists m'. split; [congruence|]. split; [assumption|].
    assert (KK : forall c0, c0 < n -> dec (gp dim m c0) = false -> gp dim m' c0 = gp dim m c0).
    { intros c0 Hc0 D0. destruct (Nat.eq_dec c0 c) as [-> | Hne].
      - rewrite K' by assumption. rewrite N1 by assumption. reflexivity.
      - assert (Eg : gp dim m1 c0 = gp dim m c0) by (apply (gp_same [c]); [assumption|assumption|assumption|intros [->|[]]; congruence]). rewrite K'; congruence. }
    split; [|split; [exact KK|split]].
    + destruct S1 as (Ew & Pc), S' as (Ew' & Pc'). split; [congruence|]. intros c0 Hc0. rewrite <- Pc by (intros [->|[]]; apply Hc0; left; reflexivity).
      apply Pc'. intros Hin. apply Hc0. right. assumption.
    + intros c0 [<- | Hin]; [|apply D'; assumption]. rewrite K' by assumption. assumption.
    + intros c0 Hin D0. destruct (Nat.eq_dec c0 c) as [-> | Hne]; [rewrite K' by assumption; apply F1; assumption|]. destruct Hin as [<- | Hin]; [congruence|].
      assert (Eg : gp dim m1 c0 = gp dim m c0) by (apply (gp_same [c]); [assumption|assumption|assumption|intros [->|[]]; congruence]). rewrite <- Eg. apply F'; congruence.
Qed.
Lemma loop_idem ids : forall k m, okm m -> Forall (fun c => c < n) ids -> (forall c, In c ids -> dec (gp dim m c) = false) ->
  orient_loop dim decide k ids m = Ret m.
Proof.
  induction ids as [|c ids IH]; intros k m Hm F D; [reflexivity|]. inversion F; subst.
  destruct (loop_step k c ids m Hm H1) as (m1 & E & _ & _ & _ & N1 & _). rewrite E, N1 by (apply D; left; reflexivity). apply IH; auto. intros c0 H. apply D. right. assumption.
Qed.
End Loop.
Lemma loop_abort dim decide k n c ids m : vm dim m -> length (m_conn m) = n * m_order m ^ dim -> n <= c -> orient_loop dim decide k (c :: ids) m = Abort.
Proof.
  intros Hv Hn Hc. assert (Pp : 0 < m_order m ^ dim) by (destruct Hv; apply Nat.neq_0_lt_0, Nat.pow_nonzero; lia).
  cbn [orient_loop]. rewrite (num_cells_ok dim m n) by (unfold pts_per_cell; auto). cbn [bind]. unfold assert_. destruct (Nat.ltb_spec c n); [lia|reflexivity].
Qed.
