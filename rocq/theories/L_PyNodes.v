From Coq Require Import List Arith Bool Lia Permutation Sorting.Sorted.
From Verif Require Import M_PyBase M_PyNodes S_PyTp.
Import ListNotations.
Local Open Scope nat_scope.

Lemma pmap_ret {A B} (f : A -> outcome B) (g : A -> B) l : (forall x, In x l -> f x = Ret (g x)) -> pmap f l = Ret (map g l).
Proof. induction l as [|x l IH]; intros H; cbn; auto. rewrite H by (left; auto). cbn. rewrite IH by (intros; apply H; right; auto). reflexivity. Qed.
Lemma pat_ret {A} (l : list A) i d : i < length l -> pat l i = Ret (nth i l d).
Proof. intros H. unfold pat. rewrite (nth_error_nth' l d H). reflexivity. Qed.
Lemma where_from_nth k x l : In x l -> exists i, where_from k x l = Ret (k + i) /\ i < length l /\ forall d, nth i l d = x.
Proof.
  revert k. induction l as [|y l IH]; intros k H; [destruct H|]. cbn [where_from]. destruct (Nat.eqb_spec y x) as [->|N].
  - exists 0. rewrite Nat.add_0_r. split; [auto|]. cbn. split; [lia|auto].
  - destruct H as [H|H]; [congruence|]. destruct (IH (S k) H) as (i & E & L & V). exists (S i). rewrite E. split; [f_equal; lia|]. cbn. split; [lia|auto].
Qed.
Lemma cover_perm n (l : list nat) : length l = n -> (forall k, k < n -> In k l) -> Permutation l (seq 0 n).
Proof.
  intros Hl Hc. assert (I : incl (seq 0 n) l) by (intros k Hk; apply in_seq in Hk; apply Hc; lia).
  assert (N : NoDup l). { apply (NoDup_incl_NoDup (seq_NoDup n 0)); auto. rewrite seq_length. lia. }
  apply NoDup_Permutation; [auto|apply seq_NoDup|]. intros x. split; [|apply I].
  intros Hx. refine (NoDup_length_incl (seq_NoDup n 0) _ I x Hx). rewrite seq_length. lia.
Qed.
Lemma renum_nth n p i : renumbering n p -> i < n -> nth i p n < n.
Proof.
  intros P H. assert (L : length p = n) by (rewrite (Permutation_length P); apply seq_length).
  assert (I : In (nth i p n) p) by (apply nth_In; lia). apply (Permutation_in _ P) in I. apply in_seq in I. lia.
Qed.
Lemma renum_inj n p i j : renumbering n p -> i < n -> j < n -> nth i p n = nth j p n -> i = j.
Proof.
  intros P Hi Hj E. assert (L : length p = n) by (rewrite (Permutation_length P); apply seq_length).
  assert (N : NoDup p) by (eapply Permutation_NoDup; [apply Permutation_sym; exact P|apply seq_NoDup]).
  rewrite (NoDup_nth p n) in N. apply N; auto; lia.
Qed.
Lemma invert_ok n p : renumbering n p -> exists q, invert_map p = Ret q /\ renumbering n q /\ inverse n p q.
Proof.
  intros P. assert (L : length p = n) by (rewrite (Permutation_length P); apply seq_length).
  set (g := fun x => match where0 x p with Ret i => i | _ => 0 end).
  assert (G : forall x, x < n -> where0 x p = Ret (g x) /\ g x < n /\ nth (g x) p n = x).
  { intros x Hx. assert (I : In x p). { apply (Permutation_in _ (Permutation_sym P)). apply in_seq. lia. }
    destruct (where_from_nth 0 x p I) as (i & E & Li & V). unfold g, where0. rewrite E. cbn. split; auto. split; [lia|]. apply V. }
  exists (map g (seq 0 n)). assert (E : invert_map p = Ret (map g (seq 0 n))).
  { unfold invert_map. rewrite L. apply pmap_ret. intros x Hx. apply in_seq in Hx. apply G. lia. }
  assert (Ln : length (map g (seq 0 n)) = n) by (rewrite map_length, seq_length; auto).
  assert (N : forall i, i < n -> nth i (map g (seq 0 n)) n = g i).
  { intros i Hi. rewrite (nth_indep _ n (g 0)) by lia. rewrite map_nth, seq_nth by auto. reflexivity. }
  assert (B : forall i, i < n -> g (nth i p n) = i).
  { intros i Hi. pose proof (renum_nth n p i P Hi) as R. destruct (G _ R) as (_ & Lg & V). apply (renum_inj n p); auto. }
  split; [exact E|]. split.
  - apply cover_perm; auto. intros k Hk. apply in_map_iff. exists (nth k p n). split; [auto|]. apply in_seq. pose proof (renum_nth n p k P Hk). lia.
  - split; [auto|]. split; [auto|]. intros i Hi. pose proof (renum_nth n p i P Hi) as R. destruct (G i Hi) as (_ & Lg & V).
    rewrite (N i Hi). rewrite N by auto. auto.
Qed.
Lemma inverse_sym n p q : inverse n p q -> inverse n q p.
Proof. intros (A & B & C). split; [auto|]. split; [auto|]. intros i Hi. destruct (C i Hi) as (a & b & c & d). auto. Qed.
(** Composition: entry i of the result is q[p[i]]. *)
Lemma compose_ok n p q : length p = n -> length q = n -> (forall i, i < n -> nth i p n < n) ->
  pmap (fun i => j <- pat p i ;; pat q j) (seq 0 n) = Ret (map (fun i => nth (nth i p n) q n) (seq 0 n)).
Proof.
  intros Lp Lq B. apply pmap_ret. intros i Hi. apply in_seq in Hi. rewrite (pat_ret p i n) by lia. cbn. apply pat_ret. rewrite Lq. apply B. lia.
Qed.

Lemma range_in a b x : In x (range a b) <-> a <= x < b.
Proof. unfold range. rewrite in_seq. lia. Qed.
Lemma range_len a b : length (range a b) = b - a.
Proof. apply seq_length. Qed.
Lemma tri d i : i < d + 1 -> i = 0 \/ i = d \/ In i (range 1 d).
Proof. intros. rewrite range_in. lia. Qed.
Lemma fm_len {A B} (f : A -> list B) k l : (forall x, length (f x) = k) -> length (flat_map f l) = length l * k.
Proof. intros H. induction l as [|x l IH]; cbn; auto. rewrite app_length, H, IH. reflexivity. Qed.
Lemma in_map_f {A B} (f : A -> B) l x y : y = f x -> In x l -> In y (map f l).
Proof. intros -> H. apply in_map; auto. Qed.
Lemma in_fm {A B} (f : A -> list B) l x y : In x l -> In y (f x) -> In y (flat_map f l).
Proof. intros. apply in_flat_map. eauto. Qed.
Ltac here := first [ solve [ eapply in_map_f; [reflexivity|assumption] ]
  | solve [ eapply in_fm; [eassumption|eapply in_map_f; [reflexivity|assumption]] ]
  | match goal with H : In ?x _, H' : In ?y _ |- _ => solve [ apply (in_fm _ _ x); [exact H|apply (in_fm _ _ y); [exact H'|eapply in_map_f; [reflexivity|assumption]]] ] end
  | solve [ repeat (first [ apply in_eq | apply in_cons ]) ] ].
Ltac find_in := first [ here | apply in_or_app; first [ left; here | right; find_in ] ].

Lemma two_digits m k : k < m * m -> exists u v, u < m /\ v < m /\ k = tflat2 m u v.
Proof.
  intros H. assert (m <> 0) by nia. exists (k mod m), (k / m). unfold tflat2. pose proof (Nat.div_mod k m). pose proof (Nat.mod_upper_bound k m).
  assert (k / m < m) by (apply Nat.div_lt_upper_bound; lia). repeat split; lia.
Qed.
Lemma three_digits m k : k < m * m * m -> exists u v w, u < m /\ v < m /\ w < m /\ k = tflat3 m u v w.
Proof.
  intros H. assert (Hm : m <> 0) by nia. assert (H2 : m * m <> 0) by nia.
  destruct (two_digits m (k mod (m * m))) as (u & v & Hu & Hv & E). { apply Nat.mod_upper_bound; auto. }
  exists u, v, (k / (m * m)). unfold tflat3, tflat2 in *. assert (k / (m * m) < m) by (apply Nat.div_lt_upper_bound; lia).
  pose proof (Nat.div_mod k (m * m) H2). repeat split; auto. rewrite <- E. lia.
Qed.
Local Opaque tflat2 tflat3.
Lemma DLF2_in d u v : u < d + 1 -> v < d + 1 -> In (tflat2 (d + 1) u v) (DLF_2D d).
Proof. intros Hu Hv. unfold DLF_2D; cbv zeta. destruct (tri d u Hu) as [->|[->|Iu]], (tri d v Hv) as [->|[->|Iv]]; find_in. Qed.
Lemma VTK2_in d u v : u < d + 1 -> v < d + 1 -> In (tflat2 (d + 1) u v) (VTK_2D d).
Proof. intros Hu Hv. unfold VTK_2D; cbv zeta. destruct (tri d u Hu) as [->|[->|Iu]], (tri d v Hv) as [->|[->|Iv]]; find_in. Qed.
Lemma DLF3_in d u v w : u < d + 1 -> v < d + 1 -> w < d + 1 -> In (tflat3 (d + 1) u v w) (DLF_3D d).
Proof. intros Hu Hv Hw. unfold DLF_3D; cbv zeta. destruct (tri d u Hu) as [->|[->|Iu]], (tri d v Hv) as [->|[->|Iv]], (tri d w Hw) as [->|[->|Iw]]; find_in. Qed.
Lemma VTK3_in d u v w : u < d + 1 -> v < d + 1 -> w < d + 1 -> In (tflat3 (d + 1) u v w) (VTK_3D d).
Proof. intros Hu Hv Hw. unfold VTK_3D; cbv zeta. destruct (tri d u Hu) as [->|[->|Iu]], (tri d v Hv) as [->|[->|Iv]], (tri d w Hw) as [->|[->|Iw]]; find_in. Qed.
Ltac lens d F2 F3 := rewrite !app_length, !map_length, ?F3, ?F2, !range_len; cbn [length].
Lemma F2 d (g : nat -> nat -> nat) : length (flat_map (fun k => map (fun j => g j k) (range 1 d)) (range 1 d)) = (d - 1) * (d - 1).
Proof. rewrite (fm_len _ (d - 1)) by (intros; rewrite map_length; apply range_len). rewrite range_len. reflexivity. Qed.
Lemma F3 d (g : nat -> nat -> nat -> nat) : length (flat_map (fun k => flat_map (fun j => map (fun i => g i j k) (range 1 d)) (range 1 d)) (range 1 d)) = (d - 1) * ((d - 1) * (d - 1)).
Proof. rewrite (fm_len _ ((d - 1) * (d - 1))) by (intros; apply (F2 d (fun i j => g i j x))). rewrite range_len. reflexivity. Qed.
Lemma two_len d : 1 <= d -> length (DLF_2D d) = (d + 1) * (d + 1) /\ length (VTK_2D d) = (d + 1) * (d + 1).
Proof. intros H. unfold DLF_2D, VTK_2D; cbv zeta. rewrite !app_length, !map_length, !F2, !range_len. cbn [length]. assert (E : d = (d - 1) + 1) by lia. generalize (d - 1), E. intros k ->. split; nia. Qed.
Lemma three_len d : 1 <= d -> length (DLF_3D d) = (d + 1) * (d + 1) * (d + 1) /\ length (VTK_3D d) = (d + 1) * (d + 1) * (d + 1).
Proof.
  intros H. unfold DLF_3D, VTK_3D; cbv zeta. rewrite !app_length, !map_length, !(F3 d), !F2, !range_len. cbn [length].
  assert (E : d = (d - 1) + 1) by lia. generalize (d - 1), E. intros k ->. split; nia.
Qed.
Lemma pow2 m : m ^ 2 = m * m. Proof. cbn. lia. Qed.
Lemma pow3 m : m ^ 3 = m * m * m. Proof. cbn. lia. Qed.
Lemma one_perm d : 1 <= d -> Permutation ([0; d] ++ range 1 d) (seq 0 (d + 1)).
Proof.
  intros H. apply cover_perm. { rewrite app_length, range_len. cbn. lia. } intros k Hk. apply in_or_app. destruct (tri d k Hk) as [->|[->|I]]; cbn; auto.
Qed.
Lemma dlf_perm dim d : 1 <= dim <= 3 -> 1 <= d -> exists p, DOLFINx_to_lexicg_nodes dim d = Ret p /\ renumbering ((d + 1) ^ dim) p.
Proof.
  intros Hd H. unfold DOLFINx_to_lexicg_nodes. replace (1 <=? d) with true by (symmetry; apply Nat.leb_le; auto).
  destruct dim as [|[|[|[|dim]]]]; try lia; cbn; eexists; (split; [reflexivity|]); unfold renumbering.
  - rewrite Nat.mul_1_r. apply one_perm; auto.
  - replace ((d + 1) * ((d + 1) * 1)) with ((d + 1) * (d + 1)) by lia. apply cover_perm; [apply two_len; auto|]. intros k Hk. destruct (two_digits _ _ Hk) as (u & v & Hu & Hv & ->). apply DLF2_in; auto.
  - replace ((d + 1) * ((d + 1) * ((d + 1) * 1))) with ((d + 1) * (d + 1) * (d + 1)) by lia. apply cover_perm; [apply three_len; auto|]. intros k Hk. destruct (three_digits _ _ Hk) as (u & v & w & Hu & Hv & Hw & ->). apply DLF3_in; auto.
Qed.
Lemma vtk_perm dim d : 1 <= dim <= 3 -> 1 <= d -> exists p, VTK_to_lexicg_nodes dim d = Ret p /\ renumbering ((d + 1) ^ dim) p.
Proof.
  intros Hd H. unfold VTK_to_lexicg_nodes. replace (1 <=? d) with true by (symmetry; apply Nat.leb_le; auto).
  destruct dim as [|[|[|[|dim]]]]; try lia; cbn; eexists; (split; [reflexivity|]); unfold renumbering.
  - rewrite Nat.mul_1_r. apply one_perm; auto.
  - replace ((d + 1) * ((d + 1) * 1)) with ((d + 1) * (d + 1)) by lia. apply cover_perm; [apply two_len; auto|]. intros k Hk. destruct (two_digits _ _ Hk) as (u & v & Hu & Hv & ->). apply VTK2_in; auto.
  - replace ((d + 1) * ((d + 1) * ((d + 1) * 1))) with ((d + 1) * (d + 1) * (d + 1)) by lia. apply cover_perm; [apply three_len; auto|]. intros k Hk. destruct (three_digits _ _ Hk) as (u & v & w & Hu & Hv & Hw & ->). apply VTK3_in; auto.
Qed.
Local Transparent tflat2 tflat3.

(** ** The orders are those of the tables *)
Lemma map_fm {A B C} (g : B -> C) (f : A -> list B) l : map g (flat_map f l) = flat_map (fun x => map g (f x)) l.
Proof. induction l as [|x l IH]; cbn; auto. rewrite map_app, IH. reflexivity. Qed.
Lemma fm_ext {A B} (f g : A -> list B) l : (forall x, f x = g x) -> flat_map f l = flat_map g l.
Proof. intros H. induction l as [|x l IH]; cbn; auto. rewrite H, IH. reflexivity. Qed.
Ltac orders d := unfold lagrange_order, edge_nodes, face_nodes, interior_nodes; cbn [basix_edges basix_facets vtk_facets flat_map map app];
  rewrite ?app_nil_r, ?map_app, <- ?app_assoc; cbn [map]; unfold range;
  rewrite ?map_fm, ?map_map;
  repeat (match goal with |- _ :: _ = _ :: _ => f_equal; [cbn; unfold tflat2, tflat3; try (rewrite ?Nat.add_0_r; nia)|] | |- _ ++ _ = _ ++ _ => f_equal end);
  cbn [app].
Ltac close_orders := repeat first [ apply map_ext; intros ? | rewrite map_fm; apply fm_ext; intros ? | apply fm_ext; intros ? | rewrite map_map]; cbn; unfold tflat2, tflat3; try nia;
  try (rewrite <- (map_id (seq _ _)) at 1; apply map_ext; intros ?; nia).
Lemma dlf_order dim d : 1 <= dim <= 3 -> 1 <= d -> DOLFINx_to_lexicg_nodes dim d = Ret (map (flat (repeat (d + 1) dim)) (basix_order d dim)).
Proof.
  intros Hd H. unfold DOLFINx_to_lexicg_nodes. replace (1 <=? d) with true by (symmetry; apply Nat.leb_le; auto).
  destruct dim as [|[|[|[|dim]]]]; try lia; cbn [assert_ Nat.leb andb Nat.eqb basix_order repeat]; f_equal;
  unfold DLF_1D, DLF_2D, DLF_3D; orders d; close_orders.
Qed.
Lemma vtk_order_ok dim d : 1 <= dim <= 3 -> 1 <= d -> VTK_to_lexicg_nodes dim d = Ret (map (flat (repeat (d + 1) dim)) (vtk_order d dim)).
Proof.
  intros Hd H. unfold VTK_to_lexicg_nodes. replace (1 <=? d) with true by (symmetry; apply Nat.leb_le; auto).
  destruct dim as [|[|[|[|dim]]]]; try lia; cbn [assert_ Nat.leb andb Nat.eqb vtk_order repeat]; f_equal;
  unfold VTK_1D, VTK_2D, VTK_3D; orders d; close_orders.
Qed.
