(** C110, C111: the numberings of the nodes of a cell in the Python layer. *)
From Coq Require Import List Arith Bool Lia Permutation.
From Verif Require Import M_Mesh M_PyBase M_PyNodes S_PyTp L_PyNodes.
Import ListNotations.
Local Close Scope R_scope. Local Close Scope Z_scope. Local Open Scope nat_scope.

(** C110: for every dimension and degree, the DOLFINx (resp. VTK) order of the nodes returned by the library is the order given by basix'
    (resp. VTK's) tables of vertices, edges and faces, and it is a renumbering of the (degree+1)^dim nodes. *)
Theorem C110_orders : forall dim degree, 1 <= dim <= 3 -> 1 <= degree ->
  let n := (degree + 1) ^ dim in let pos := flat (repeat (degree + 1) dim) in
  DOLFINx_to_lexicg_nodes dim degree = Ret (map pos (basix_order degree dim)) /\ renumbering n (map pos (basix_order degree dim)) /\
  VTK_to_lexicg_nodes dim degree = Ret (map pos (vtk_order degree dim)) /\ renumbering n (map pos (vtk_order degree dim)).
Proof.
  intros dim degree Hd H n pos. destruct (dlf_perm dim degree Hd H) as (p & E & P), (vtk_perm dim degree Hd H) as (q & E' & Q).
  pose proof (dlf_order dim degree Hd H) as D. pose proof (vtk_order_ok dim degree Hd H) as V. fold pos in D, V.
  rewrite E in D. rewrite E' in V. injection D as D. injection V as V. rewrite E, E', <- D, <- V. auto.
Qed.
(** The maps between the three numberings are inverse to each other, and DOLFINx_to_VTK (VTK_to_DOLFINx) is the composition. *)
Theorem C110_inverses : forall dim degree, 1 <= dim <= 3 -> 1 <= degree ->
  let n := (degree + 1) ^ dim in
  exists dl ld vl lv dv vd,
    DOLFINx_to_lexicg_nodes dim degree = Ret dl /\ lexicg_to_DOLFINx_nodes dim degree = Ret ld /\ inverse n dl ld /\
    VTK_to_lexicg_nodes dim degree = Ret vl /\ lexicg_to_VTK_nodes dim degree = Ret lv /\ inverse n vl lv /\
    DOLFINx_to_VTK_nodes dim degree = Ret dv /\ VTK_to_DOLFINx_nodes dim degree = Ret vd /\ inverse n dv vd /\
    (** same node: entry i of the DOLFINx numbering and entry dv[i] of the VTK one have the same lexicographical position *)
    (forall i, i < n -> nth (nth i dv n) vl n = nth i dl n).
Proof.
  intros dim degree Hd H n. destruct (dlf_perm dim degree Hd H) as (dl & Ed & Pd), (vtk_perm dim degree Hd H) as (vl & Ev & Pv).
  fold n in Pd, Pv. destruct (invert_ok n dl Pd) as (ld & Eld & Pld & Id), (invert_ok n vl Pv) as (lv & Elv & Plv & Iv).
  pose proof Id as (Ldl & Lld & Cd). pose proof Iv as (Lvl & Llv & Cv).
  assert (X1 : DOLFINx_to_VTK_nodes dim degree = Ret (map (fun i => nth (nth i dl n) lv n) (seq 0 n))).
  { unfold DOLFINx_to_VTK_nodes, lexicg_to_VTK_nodes. rewrite Ed, Ev. cbn [bind]. rewrite Elv. cbn [bind]. rewrite Ldl. apply compose_ok; auto. intros i Hi. apply Cd. auto. }
  assert (X2 : VTK_to_DOLFINx_nodes dim degree = Ret (map (fun i => nth (nth i vl n) ld n) (seq 0 n))).
  { unfold VTK_to_DOLFINx_nodes, lexicg_to_DOLFINx_nodes. rewrite Ed, Ev. cbn [bind]. rewrite Eld. cbn [bind]. rewrite Lvl. apply compose_ok; auto. intros i Hi. apply Cv. auto. }
  assert (N : forall g i, i < n -> nth i (map g (seq 0 n)) n = g i).
  { intros g i Hi. rewrite (nth_indep _ n (g 0)) by (rewrite map_length, seq_length; auto). rewrite map_nth, seq_nth by auto. reflexivity. }
  exists dl, ld, vl, lv, (map (fun i => nth (nth i dl n) lv n) (seq 0 n)), (map (fun i => nth (nth i vl n) ld n) (seq 0 n)).
  unfold lexicg_to_DOLFINx_nodes, lexicg_to_VTK_nodes. rewrite Ed, Ev. cbn [bind].
  assert (Y : forall i, i < n -> nth i dl n < n /\ nth (nth i dl n) lv n < n /\ nth (nth (nth i dl n) lv n) vl n = nth i dl n).
  { intros i Hi. destruct (Cd i Hi) as (a & _). destruct (Cv _ a) as (_ & b & _ & c). auto. }
  assert (Z : forall i, i < n -> nth i vl n < n /\ nth (nth i vl n) ld n < n /\ nth (nth (nth i vl n) ld n) dl n = nth i vl n).
  { intros i Hi. destruct (Cv i Hi) as (a & _). destruct (Cd _ a) as (_ & b & _ & c). auto. }
  repeat (split; [assumption || reflexivity|]). split; [|].
  - split; [rewrite map_length, seq_length; auto|]. split; [rewrite map_length, seq_length; auto|]. intros i Hi.
    destruct (Y i Hi) as (y1 & y2 & y3), (Z i Hi) as (z1 & z2 & z3). rewrite (N _ i Hi). rewrite (N _ i Hi). rewrite N by auto. rewrite N by auto.
    repeat split; auto; [rewrite y3; apply Cd; auto | rewrite z3; apply Cv; auto].
  - intros i Hi. rewrite N by auto. apply Y; auto.
Qed.
Print Assumptions C110_orders.
Print Assumptions C110_inverses.
(** The hypotheses are met, e.g. by quadratic hexahedra: 27 nodes; node 8 of DOLFINx is the middle of the first edge. *)
Example C110_case : exists p, DOLFINx_to_lexicg_nodes 3 2 = Ret p /\ length p = 27 /\ nth 8 p 0 = 1 /\ nth 26 p 0 = 13.
Proof. eexists. split; [reflexivity|]. repeat split. Qed.

(** C111: the Python package and the C++ writer (create_VTU_conn_mask) use the same VTK node order. Refuted: hexahedra of degree >= 2. *)
Theorem C111_refuted : ~ (forall dim degree, 1 <= dim <= 3 -> 1 <= degree -> VTK_to_lexicg_nodes dim degree = vtu_mask dim (degree + 1)).
Proof. intros H. specialize (H 3 2 ltac:(lia) ltac:(lia)). vm_compute in H. discriminate. Qed.
(** They differ for every degree >= 2, *)
Ltac match_orders T := repeat (match goal with
  | |- ?l = ?l => reflexivity
  | |- _ ++ _ = _ ++ _ => apply f_equal2
  | |- map _ _ = map _ _ => apply map_ext; intros ?; first [apply T | symmetry; apply T]
  | |- flat_map _ _ = flat_map _ _ => apply fm_ext; intros ? end).
Lemma mask3_tflat d : vtu_mask3 (d + 1) =
  let f := tflat3 (d + 1) in let r := range 1 d in
  [f 0 0 0; f d 0 0; f d d 0; f 0 d 0; f 0 0 d; f d 0 d; f d d d; f 0 d d]
  ++ map (fun u => f u 0 0) r ++ map (fun v => f d v 0) r ++ map (fun u => f u d 0) r ++ map (fun v => f 0 v 0) r
  ++ map (fun u => f u 0 d) r ++ map (fun v => f d v d) r ++ map (fun u => f u d d) r ++ map (fun v => f 0 v d) r
  ++ map (fun w => f 0 0 w) r ++ map (fun w => f d 0 w) r ++ map (fun w => f 0 d w) r ++ map (fun w => f d d w) r
  ++ flat_map (fun w => map (fun v => f 0 v w) r) r ++ flat_map (fun w => map (fun v => f d v w) r) r
  ++ flat_map (fun w => map (fun u => f u 0 w) r) r ++ flat_map (fun w => map (fun u => f u d w) r) r
  ++ flat_map (fun v => map (fun u => f u v 0) r) r ++ flat_map (fun v => map (fun u => f u v d) r) r
  ++ flat_map (fun w => flat_map (fun v => map (fun u => f u v w) r) r) r.
Proof.
  assert (T : forall i j k, M_TensorNat.tp_flat [d + 1; d + 1; d + 1] [i; j; k] = tflat3 (d + 1) i j k) by (intros; cbn; unfold tflat3; nia).
  unfold vtu_mask3, inner_ids, range; cbv zeta. replace (d + 1 - 1) with d by lia. replace (d + 1 - 2) with (d - 1) by lia. rewrite !T.
  match_orders T.
Qed.
Theorem C111_all_degrees_refuted : forall degree, 2 <= degree -> VTK_to_lexicg_nodes 3 degree <> vtu_mask 3 (degree + 1).
Proof.
  intros d Hd E. unfold VTK_to_lexicg_nodes, vtu_mask in E. replace (1 <=? d) with true in E by (symmetry; apply Nat.leb_le; lia).
  replace (1 <? d + 1) with true in E by (symmetry; apply Nat.ltb_lt; lia). cbn [assert_ Nat.leb andb Nat.eqb] in E.
  assert (E' : VTK_3D d = vtu_mask3 (d + 1)) by congruence. clear E. rename E' into E. rewrite mask3_tflat in E. unfold VTK_3D in E; cbv zeta in E. do 11 apply app_inv_head in E.
  unfold range in E. replace (d - 1) with (S (d - 2)) in E by lia. cbn [seq map app] in E. injection E as E _. unfold tflat3 in E. nia.
Qed.
(** but agree on intervals, quadrilaterals and trilinear hexahedra. *)
Theorem C111_partial : forall dim degree, 1 <= dim <= 3 -> 1 <= degree -> (dim <= 2 \/ degree = 1) -> VTK_to_lexicg_nodes dim degree = vtu_mask dim (degree + 1).
Proof.
  intros dim d Hd H C. destruct (Nat.eq_dec dim 3) as [->|N]. { destruct C as [C| ->]; [lia|]. reflexivity. }
  unfold VTK_to_lexicg_nodes, vtu_mask. replace (1 <=? d) with true by (symmetry; apply Nat.leb_le; lia).
  replace (1 <? d + 1) with true by (symmetry; apply Nat.ltb_lt; lia). cbn [assert_]. destruct dim as [|[|[|dim]]]; try lia; cbn [assert_ Nat.leb andb Nat.eqb]; f_equal.
  - unfold VTK_1D, vtu_mask1, inner_ids, range. replace (d + 1 - 1) with d by lia. replace (d + 1 - 2) with (d - 1) by lia. reflexivity.
  - assert (T : forall i j, M_TensorNat.tp_flat [d + 1; d + 1] [i; j] = tflat2 (d + 1) i j) by (intros; cbn; unfold tflat2; nia).
    unfold VTK_2D, vtu_mask2, inner_ids, range; cbv zeta. replace (d + 1 - 1) with d by lia. replace (d + 1 - 2) with (d - 1) by lia. rewrite !T.
    match_orders T.
Qed.
Print Assumptions C111_refuted.
Print Assumptions C111_all_degrees_refuted.
Print Assumptions C111_partial.
Example C111_case : exists p, VTK_to_lexicg_nodes 2 3 = Ret p /\ vtu_mask 2 4 = Ret p /\ length p = 16.
Proof. eexists. repeat split. Qed.
