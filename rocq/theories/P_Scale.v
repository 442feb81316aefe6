(** Theorems for the scaling of mesh points (C84). *)
From Coq Require Import Reals List Lia Lra Arith ZArith.
From Verif Require Import M_Mesh S_Mesh L_Real L_Point L_BBox L_Mesh.
Import ListNotations.
Local Close Scope Z_scope. Local Close Scope nat_scope. Local Open Scope R_scope.

(** The point of [new] at the same relative position as p in [old]. *)
Definition same_position (range : nat) (old new : bbox) (p q : list R) : Prop :=
  length q = range /\ forall d, (d < range)%nat ->
    (nth d q 0 - nth d (bmin new) 0) * (nth d (bmax old) 0 - nth d (bmin old) 0) = (nth d p 0 - nth d (bmin old) 0) * (nth d (bmax new) 0 - nth d (bmin new) 0).

Lemma scale_point_ok range od nd p : length p = range -> length (bmin od) = range -> length (bmax od) = range -> length (bmin nd) = range -> length (bmax nd) = range ->
  (forall d, (d < range)%nat -> nth d (bmin od) 0 < nth d (bmax od) 0) -> same_position range od nd p (scale_point od nd p).
Proof.
  destruct od as [a b], nd as [c e]. unfold scale_point, box_lengths, same_position. cbn [bmin bmax]. revert p a b c e.
  induction range as [|range IH]; intros p a b c e Hp Ha Hb Hc He Hlt; destruct p, a, b, c, e; try discriminate; [split; [reflexivity|intros d Hd; lia]|].
  cbn [length] in *. injection Hp as Hp. injection Ha as Ha. injection Hb as Hb. injection Hc as Hc. injection He as He.
  destruct (IH p a b c e Hp Ha Hb Hc He) as [L H]; [intros d Hd; apply (Hlt (S d)); lia|].
  cbn [map2 map3]. split; [cbn [length]; f_equal; exact L|]. intros [|d] Hd; cbn [nth]; [|apply H; lia].
  assert (nth 0 (r0 :: a) 0 < nth 0 (r1 :: b) 0) by (apply Hlt; lia). cbn [nth] in *. field. lra.
Qed.

(** C84: scale_points(ids): every listed point (ids without repetition) moves to the same relative position in the new box; nothing else changes. *)
Theorem C84_scale_points : forall range m ids od nd, Forall (fun p => length p = range) (m_points m) ->
  length (bmin od) = range -> length (bmax od) = range -> length (bmin nd) = range -> length (bmax nd) = range ->
  (forall d, (d < range)%nat -> nth d (bmin od) 0 < nth d (bmax od) 0) ->
  (NoDup ids -> Forall (fun i => (i < length (m_points m))%nat) ids ->
   exists m', scale_points m ids od nd = Ret m' /\ m_order m' = m_order m /\ m_conn m' = m_conn m /\ m_wires m' = m_wires m /\
     length (m_points m') = length (m_points m) /\
     (forall k, ~ In k ids -> nth k (m_points m') [] = nth k (m_points m) []) /\
     (forall k, In k ids -> same_position range od nd (nth k (m_points m) []) (nth k (m_points m') []))) /\
  ((exists i, In i ids /\ (length (m_points m) <= i)%nat) -> scale_points m ids od nd = Abort).
Proof.
  intros range m ids od nd Fp L1 L2 L3 L4 Hlt. split.
  - revert m Fp. induction ids as [|i ids IH]; intros m Fp ND Fi.
    + exists m. repeat split; auto; contradiction.
    + inversion_clear ND as [|? ? Hni ND']. inversion_clear Fi as [|? ? Hi Fi'].
      cbn [scale_points]. rewrite (L_Mesh.at_ok (m_points m) i [] Hi). cbn [bind].
      set (p := nth i (m_points m) []). assert (Hp : length p = range) by (apply (proj1 (Forall_forall _ _) Fp); apply nth_In; exact Hi).
      assert (S := scale_point_ok range od nd p Hp L1 L2 L3 L4 Hlt).
      destruct (IH (mk_mesh (m_order m) (set_at (m_points m) i (scale_point od nd p)) (m_conn m) (m_wires m))) as (m' & E & Eo & Ec & Ew & El & Hk & Hin).
      * cbn [m_points]. apply Forall_forall. intros x Hx. apply (In_nth _ _ []) in Hx as (j & Hj & <-). rewrite set_at_length in Hj. rewrite set_at_nth.
        destruct (Nat.eqb_spec i j); [subst; rewrite (proj2 (Nat.ltb_lt _ _) Hj); apply S|apply (proj1 (Forall_forall _ _) Fp); apply nth_In; exact Hj].
      * exact ND'.
      * cbn [m_points]. rewrite set_at_length. exact Fi'.
      * cbn [m_points m_order m_conn m_wires] in *. rewrite set_at_length in El. exists m'. split; [exact E|]. split; [exact Eo|]. split; [exact Ec|]. split; [exact Ew|]. split; [exact El|].
        split.
        -- intros k Hnk. rewrite Hk by (intros HH; apply Hnk; right; exact HH). rewrite set_at_nth. destruct (Nat.eqb_spec i k); [exfalso; apply Hnk; left; assumption|reflexivity].
        -- intros k [<- | HH].
           ++ rewrite Hk by exact Hni. rewrite set_at_nth, Nat.eqb_refl, (proj2 (Nat.ltb_lt _ _) Hi). exact S.
           ++ specialize (Hin k HH). rewrite set_at_nth in Hin. destruct (Nat.eqb_spec i k); [congruence|exact Hin].
  - intros (i & Hin & Hi). revert m Fp Hi. induction ids as [|j ids IH]; intros m Fp Hi; [contradiction|]. cbn [scale_points].
    destruct (le_lt_dec (length (m_points m)) j) as [Hj|Hj]; [unfold M_Mesh.at_; rewrite (proj2 (nth_error_None (m_points m) j) Hj); reflexivity|].
    rewrite (L_Mesh.at_ok (m_points m) j [] Hj). cbn [bind]. destruct Hin as [<- | Hin]; [lia|]. apply IH; [exact Hin| |cbn [m_points]; rewrite set_at_length; exact Hi].
    cbn [m_points]. apply Forall_forall. intros x Hx. apply (In_nth _ _ []) in Hx as (k & Hk & <-). rewrite set_at_length in Hk. rewrite set_at_nth.
    destruct (Nat.eqb_spec j k); [subst; rewrite (proj2 (Nat.ltb_lt _ _) Hk); apply scale_point_ok; auto|]; apply (proj1 (Forall_forall _ _) Fp); apply nth_In; assumption.
Qed.
Print Assumptions C84_scale_points.
Example C84_meets : let m := mk_mesh 2 [[0; 0]; [1; 0]] [0; 1]%nat [] in exists m', scale_points m [1%nat] (mk_box [0; 0] [1; 1]) (mk_box [2; 2] [4; 3]) = Ret m' /\
  same_position 2 (mk_box [0; 0] [1; 1]) (mk_box [2; 2] [4; 3]) [1; 0] (nth 1 (m_points m') []).
Proof.
  intros m. destruct (C84_scale_points 2 m [1%nat] (mk_box [0; 0] [1; 1]) (mk_box [2; 2] [4; 3])) as [H _]; try reflexivity; [repeat constructor| |].
  - intros [|[|d]] Hd; cbn; try lra; lia.
  - destruct H as (m' & E & _ & _ & _ & _ & _ & Hin); [repeat constructor; intros []|repeat constructor|]. exists m'. split; [exact E|]. exact (Hin 1%nat (or_introl eq_refl)).
Qed.
