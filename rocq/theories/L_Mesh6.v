From Coq Require Import Reals List Lia Lra Permutation Sorting.Sorted Bool Arith ZArith.
From Verif Require Import M_Mesh S_Mesh S_MeshOps S_Point L_BBox L_Point L_TensorNat L_Mesh L_Mesh2 L_Mesh3 L_Mesh4 L_Mesh5.
Import ListNotations.
Local Close Scope R_scope. Local Close Scope Z_scope. Local Open Scope nat_scope.

Lemma hd_rev (l : list nat) : hd 0 (rev l) = last l 0.
Proof. destruct l as [|x l] using rev_ind; [reflexivity|]. rewrite rev_app_distr, last_last. reflexivity. Qed.
Lemma last_rev (l : list nat) : last (rev l) 0 = hd 0 l.
Proof. destruct l as [|x l]; [reflexivity|]. cbn [rev hd]. apply last_last. Qed.
(** The output of sort_edge_points is in canonical direction. *)
Lemma sort_canon o e : length e = o -> 2 <= o -> let s := sort_edge_points o e in
  hd 0 s <= last s 0 /\ (hd 0 s = last s 0 -> 2 < o -> nth 1 s 0 <= nth (o - 2) s 0).
Proof.
  intros L Ho. cbv zeta. unfold sort_edge_points. destruct (Nat.eqb_spec (hd 0 e) (last e 0)) as [E|E]; cbn [andb].
  - destruct (Nat.ltb_spec 2 o) as [H2|H2].
    + destruct (Nat.ltb_spec (nth (o - 2) e 0) (nth 1 e 0)) as [H|H]; rewrite ?hd_rev, ?last_rev; split; try lia; intros _ _.
      rewrite !rev_nth by lia. rewrite L. replace (o - 2) with (o - 2) by lia. replace (o - S (o - 2)) with 1 by lia. replace (o - 2) with (o - 2) by lia. lia.
    + destruct (Nat.ltb_spec (last e 0) (hd 0 e)); rewrite ?hd_rev, ?last_rev; split; try lia.
  - destruct (Nat.ltb_spec (last e 0) (hd 0 e)); rewrite ?hd_rev, ?last_rev; split; try lia; intros; lia.
Qed.
Lemma last_nth (l : list nat) : last l 0 = nth (length l - 1) l 0.
Proof. destruct l as [|x l] using rev_ind; [reflexivity|]. rewrite last_last, app_length. cbn [length]. replace (length l + 1 - 1) with (length l) by lia. rewrite app_nth2, Nat.sub_diag by lia. reflexivity. Qed.
Lemma hd_nth (l : list nat) : hd 0 l = nth 0 l 0.
Proof. destruct l; reflexivity. Qed.
Lemma canon_unique o e f : length e = o -> length f = o -> 2 <= o ->
  (hd 0 e <= last e 0 /\ (hd 0 e = last e 0 -> 2 < o -> nth 1 e 0 <= nth (o - 2) e 0)) ->
  (hd 0 f <= last f 0 /\ (hd 0 f = last f 0 -> 2 < o -> nth 1 f 0 <= nth (o - 2) f 0)) -> same_edge e f -> e <> f ->
  6 <= o /\ hd 0 e = last e 0 /\ nth 1 e 0 = nth (o - 2) e 0.
Proof.
  intros Le Lf Ho [A1 A2] [B1 B2] [-> | ->] N; [congruence|]. rewrite hd_rev, last_rev in *.
  assert (E : hd 0 f = last f 0) by lia. specialize (A2 ltac:(lia)). specialize (B2 ltac:(lia)).
  assert (Dec : o <= 5 \/ 6 <= o) by lia.
  assert (S1 : 2 < o -> nth 1 (rev f) 0 = nth (o - 2) f 0). { intros H. rewrite rev_nth by lia. f_equal. lia. }
  assert (S2 : 2 < o -> nth (o - 2) (rev f) 0 = nth 1 f 0). { intros H. rewrite rev_nth by lia. f_equal. lia. }
  assert (Eq : 2 < o -> nth 1 f 0 = nth (o - 2) f 0). { intros H. specialize (A2 H). specialize (B2 H). rewrite S1, S2 in A2 by auto. lia. }
  split; [|split; [auto|]].
  - destruct Dec as [D|D]; auto. exfalso. apply N. rewrite hd_nth, last_nth, Lf in E. clear - Lf E Eq D Ho. subst o.
    destruct f as [|a [|b [|c [|d [|e [|? ?]]]]]]; cbn in *; try lia; try (specialize (Eq ltac:(lia))); subst; reflexivity.
  - destruct (Nat.lt_ge_cases 2 o) as [H|H]; [rewrite S1, S2 by auto; rewrite Eq; auto|]. replace o with 2 in * by lia.
    destruct f as [|a [|b [|? ?]]]; cbn in *; try lia.
Qed.

Lemma C50_proof sort esort dim range m tol : valid dim (m_order m) (m_points m) (m_conn m) (m_wires m) -> 2 <= length (m_points m) ->
  (0 <= tol)%R -> 0 < range -> sorting_routine (m_points m) sort -> sorts_by edge_lt esort ->
  let new_id := fun i => nth i (snd (make_points_unique sort range (m_points m) tol [])) 0 in
  exists r w w', merge_coincident_points sort esort range m tol = Ret r /\ m_order r = m_order m /\
    m_points r = fst (make_points_unique sort range (m_points m) tol []) /\ m_conn r = map new_id (m_conn m) /\
    length (m_wires m) = w * m_order m /\ length (m_wires r) = w' * m_order m /\
    (forall c, c < w -> exists c', c' < w' /\ same_edge (group_ids (m_order m) (m_wires r) c') (map new_id (group_ids (m_order m) (m_wires m) c))) /\
    (forall c', c' < w' -> exists c, c < w /\ same_edge (group_ids (m_order m) (m_wires r) c') (map new_id (group_ids (m_order m) (m_wires m) c))) /\
    (forall a b, a < w' -> b < w' -> a <> b -> group_ids (m_order m) (m_wires r) a <> group_ids (m_order m) (m_wires r) b) /\
    (forall a b, a < w' -> b < w' -> a <> b -> same_edge (group_ids (m_order m) (m_wires r) a) (group_ids (m_order m) (m_wires r) b) ->
       let e := group_ids (m_order m) (m_wires r) a in
       6 <= m_order m /\ hd 0 e = last e 0 /\ nth 1 e 0 = nth (m_order m - 2) e 0).
Proof.
  intros V Hp Ht Hr Hs He. cbv zeta. destruct (merge_points_ok sort esort dim range m tol V Ht Hr Hs He Hp) as (ls & w & Hw & E & F & ND & I). cbv zeta in *.
  eexists. exists w, (length ls). split; [exact E|]. cbn [m_order m_points m_conn m_wires]. split; auto. split; auto. split; auto. split; auto.
  split; [apply concat_length; auto|]. destruct V as (Ho & _).
  assert (G : forall c, c < length ls -> group_ids (m_order m) (concat ls) c = nth c ls []) by (intros; apply group_ids_concat; auto).
  split; [|split; [|split]].
  - intros c Hc. assert (Hin : In (sort_edge_points (m_order m) (map (fun i => nth i (snd (make_points_unique sort range (m_points m) tol [])) 0) (group_ids (m_order m) (m_wires m) c))) ls) by (apply I; eauto).
    apply (In_nth _ _ []) in Hin as (c' & Hc' & Ec). exists c'. split; auto. rewrite G, Ec by auto. apply sort_edge_same.
  - intros c' Hc'. rewrite G by auto. assert (Hin : In (nth c' ls []) ls) by (apply nth_In; auto). apply I in Hin as (c & Hc & Ec). exists c. split; auto. rewrite Ec. apply sort_edge_same.
  - intros a b Ha Hb N. rewrite !G by auto. intros K. apply N. apply (proj1 (NoDup_nth ls []) ND a b); auto.
  - intros a b Ha Hb N. rewrite !G by auto. intros K. rewrite Forall_forall in F.
    assert (Ca : In (nth a ls []) ls) by (apply nth_In; auto). assert (Cb : In (nth b ls []) ls) by (apply nth_In; auto).
    apply (canon_unique (m_order m) (nth a ls []) (nth b ls [])); auto.
    + apply I in Ca as (c & Hc & ->). apply sort_canon; auto. rewrite map_length. apply group_ids_length.
    + apply I in Cb as (c & Hc & ->). apply sort_canon; auto. rewrite map_length. apply group_ids_length.
    + intros K'. apply N. apply (proj1 (NoDup_nth ls []) ND a b); auto.
Qed.

(** A closed edge that is symmetric at both ends but not in the middle. *)
Definition loop_mesh : mesh := mk_mesh 6 [[0; 0]; [1; 0]; [2; 0]; [3; 0]]%R [] [0; 1; 2; 3; 1; 0; 0; 1; 3; 2; 1; 0].
Lemma C50_witness : valid 2 (m_order loop_mesh) (m_points loop_mesh) (m_conn loop_mesh) (m_wires loop_mesh) /\
  forall sort esort, sorting_routine (m_points loop_mesh) sort -> sorts_by edge_lt esort ->
  exists r, merge_coincident_points sort esort 2 loop_mesh 0%R = Ret r /\ exists a b, a < 2 /\ b < 2 /\ a <> b /\ length (m_wires r) = 2 * m_order r /\
    same_edge (group_ids (m_order r) (m_wires r) a) (group_ids (m_order r) (m_wires r) b).
Proof.
  split.
  { unfold valid, loop_mesh. cbn [m_order m_points m_conn m_wires length]. split; [lia|]. split; [exists 0; reflexivity|]. split; [exists 2; reflexivity|].
    split; [constructor|]. repeat constructor; lia. }
  intros sort esort Hs He.
  assert (V : vmesh 2 loop_mesh). { unfold vmesh, valid, loop_mesh. cbn [m_order m_points m_conn m_wires length]. split; [lia|]. split; [exists 0; reflexivity|]. split; [exists 2; reflexivity|].
    split; [constructor|]. repeat constructor; lia. }
  destruct (merge_points_ok sort esort 2 2 loop_mesh 0%R V (Rle_refl 0) ltac:(lia) Hs He ltac:(cbn; lia)) as (ls & w & Hw & E & F & ND & I). cbv zeta in *.
  destruct (make_unique_spec sort 2 (m_points loop_mesh) 0%R [] (Rle_refl 0) ltac:(lia) Hs) as (reps & _ & _ & _ & _ & _ & _ & _ & D).
  set (otn := snd (make_points_unique sort 2 (m_points loop_mesh) 0%R [])) in *.
  assert (N : nth 2 otn 0 <> nth 3 otn 0).
  { intros K. specialize (D 2 3 ltac:(cbn; lia) ltac:(cbn; lia) K 0 ltac:(lia)) as [D _]. unfold pt_coord, loop_mesh in D. cbn [m_points nth] in D. rewrite Rmult_0_r in D.
    rewrite Rabs_left in D by lra. lra. }
  replace w with 2 in * by (cbn in Hw; lia). clear Hw.
  set (e0 := [nth 0 otn 0; nth 1 otn 0; nth 2 otn 0; nth 3 otn 0; nth 1 otn 0; nth 0 otn 0]).
  set (e1 := [nth 0 otn 0; nth 1 otn 0; nth 3 otn 0; nth 2 otn 0; nth 1 otn 0; nth 0 otn 0]).
  assert (S0 : sort_edge_points 6 (map (fun i => nth i otn 0) (group_ids 6 (m_wires loop_mesh) 0)) = e0).
  { unfold sort_edge_points. cbn -[Nat.eqb Nat.ltb]. rewrite Nat.eqb_refl. cbn -[Nat.ltb Nat.eqb]. rewrite Nat.ltb_irrefl. destruct (2 <? 6) eqn:B; [reflexivity|discriminate]. }
  assert (S1 : sort_edge_points 6 (map (fun i => nth i otn 0) (group_ids 6 (m_wires loop_mesh) 1)) = e1).
  { unfold sort_edge_points. cbn -[Nat.eqb Nat.ltb]. rewrite Nat.eqb_refl. cbn -[Nat.ltb Nat.eqb]. rewrite Nat.ltb_irrefl. destruct (2 <? 6) eqn:B; [reflexivity|discriminate]. }
  change (m_order loop_mesh) with 6 in *.
  assert (I0 : In e0 ls) by (apply I; exists 0; split; [lia|auto]). assert (I1 : In e1 ls) by (apply I; exists 1; split; [lia|auto]).
  assert (Len : length ls = 2).
  { assert (P : Permutation ls [e0; e1]).
    { apply NoDup_Permutation; auto.
      - constructor; [|constructor; [intros []|constructor]]. intros [K|[]]. unfold e0, e1 in K. injection K as K _. congruence.
      - intros x. rewrite I. split.
        + intros (c & Hc & ->). destruct c as [|[|c]]; [left; auto|right; left; auto|lia].
        + intros [<-|[<-|[]]]; [exists 0|exists 1]; auto. }
    rewrite (Permutation_length P). reflexivity. }
  eexists. split; [exact E|]. cbn [m_order m_wires].
  apply (In_nth _ _ []) in I0 as (a & Ha & Ea). apply (In_nth _ _ []) in I1 as (b & Hb & Eb). exists a, b. split; [lia|]. split; [lia|]. split.
  - intros ->. rewrite Ea in Eb. unfold e0, e1 in Eb. injection Eb as K _. congruence.
  - split; [rewrite (concat_length 6) by auto; lia|]. rewrite !group_ids_concat by auto. rewrite Ea, Eb. right. reflexivity.
Qed.
