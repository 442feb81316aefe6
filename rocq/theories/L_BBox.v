From Verif Require Import M_Real M_BBox S_Grid L_Real.
From Coq Require Import Lra.
Open Scope R_scope.

Lemma map3_length {A B C D} (f : A -> B -> C -> D) l : forall m n, length l = length m -> length l = length n -> length (map3 f l m n) = length l.
Proof. induction l as [|a l IH]; intros [|b m] [|c n]; simpl; intros; try lia; auto. Qed.
Lemma map3_nth {A B C D} (f : A -> B -> C -> D) da db dc dd l : forall m n d, length l = length m -> length l = length n -> (d < length l)%nat ->
  nth d (map3 f l m n) dd = f (nth d l da) (nth d m db) (nth d n dc).
Proof. induction l as [|a l IH]; intros [|b m] [|c n] [|d]; simpl; intros; try lia; auto. apply IH; lia. Qed.

Lemma lengths_len b : length (bmin b) = length (bmax b) -> length (box_lengths b) = length (bmin b).
Proof. intros. unfold box_lengths. rewrite map2_length; lia. Qed.
Lemma lengths_nth b d : length (bmin b) = length (bmax b) -> (d < length (bmin b))%nat -> nth d (box_lengths b) 0 = nth d (bmax b) 0 - nth d (bmin b) 0.
Proof. intros. unfold box_lengths. now rewrite (map2_nth _ 0 0) by lia. Qed.

Lemma to01_nth b p d : length (bmin b) = length (bmax b) -> length p = length (bmin b) -> (d < length p)%nat ->
  nth d (scale_to_01 b p) 0 = (nth d p 0 - nth d (bmin b) 0) / (nth d (bmax b) 0 - nth d (bmin b) 0).
Proof.
  intros. unfold scale_to_01. rewrite (map3_nth _ 0 0 0) by (rewrite ?lengths_len; lia). now rewrite lengths_nth by lia.
Qed.
Lemma to01_len b p : length (bmin b) = length (bmax b) -> length p = length (bmin b) -> length (scale_to_01 b p) = length p.
Proof. intros. unfold scale_to_01. rewrite map3_length; rewrite ?lengths_len; lia. Qed.
Lemma from01_nth b p d : length (bmin b) = length (bmax b) -> length p = length (bmin b) -> (d < length p)%nat ->
  nth d (scale_from_01 b p) 0 = nth d p 0 * (nth d (bmax b) 0 - nth d (bmin b) 0) + nth d (bmin b) 0.
Proof.
  intros. unfold scale_from_01. rewrite (map3_nth _ 0 0 0) by (rewrite ?lengths_len; lia). now rewrite lengths_nth by lia.
Qed.
Lemma from01_len b p : length (bmin b) = length (bmax b) -> length p = length (bmin b) -> length (scale_from_01 b p) = length p.
Proof. intros. unfold scale_from_01. rewrite map3_length; rewrite ?lengths_len; lia. Qed.
Lemma tonew_nth b nb p d : length (bmin b) = length (bmax b) -> length p = length (bmin b) ->
  length (bmin nb) = length (bmax nb) -> length (bmin nb) = length (bmin b) -> (d < length p)%nat ->
  nth d (scale_to_new b nb p) 0 = (nth d p 0 - nth d (bmin b) 0) * (nth d (bmax nb) 0 - nth d (bmin nb) 0)
     / (nth d (bmax b) 0 - nth d (bmin b) 0) + nth d (bmin nb) 0.
Proof.
  intros. unfold scale_to_new. rewrite (map3_nth _ 0 (0,0) (0,0)) by (rewrite ?combine_length, ?lengths_len; lia).
  rewrite !combine_nth by (rewrite lengths_len; lia). cbn [fst snd]. now rewrite !lengths_nth by lia.
Qed.
Lemma tonew_len b nb p : length (bmin b) = length (bmax b) -> length p = length (bmin b) ->
  length (bmin nb) = length (bmax nb) -> length (bmin nb) = length (bmin b) -> length (scale_to_new b nb p) = length p.
Proof. intros. unfold scale_to_new. rewrite map3_length; rewrite ?combine_length, ?lengths_len; lia. Qed.

Lemma ratio_bounds a b x : a < b -> a <= x <= b -> 0 <= (x - a) / (b - a) <= 1.
Proof.
  intros H Hx. assert (0 < / (b - a)) by (apply Rinv_0_lt_compat; lra). split.
  - apply Rmult_le_pos; lra.
  - apply (Rmult_le_reg_r (b - a)); [lra|]. unfold Rdiv. rewrite Rmult_assoc, Rinv_l by lra. lra.
Qed.

Lemma C34_lemma : forall b nb p, positive_box (bmin b) (bmax b) -> positive_box (bmin nb) (bmax nb) ->
  length (bmin nb) = length (bmin b) -> length p = length (bmin b) ->
  scale_from_01 b (scale_to_01 b p) = p /\ scale_to_01 b (scale_from_01 b p) = p /\
  scale_to_new nb b (scale_to_new b nb p) = p /\
  scale_to_new b nb (bmin b) = bmin nb /\ scale_to_new b nb (bmax b) = bmax nb /\
  scale_from_01 nb (scale_to_01 b p) = scale_to_new b nb p /\
  (in_closed (bmin b) (bmax b) p -> in_closed (bmin nb) (bmax nb) (scale_to_new b nb p)) /\
  (in_closed (bmin b) (bmax b) p -> forall d, (d < length p)%nat -> 0 <= nth d (scale_to_01 b p) 0 <= 1) /\
  ((forall d, (d < length p)%nat -> 0 <= nth d p 0 <= 1) -> in_closed (bmin b) (bmax b) (scale_from_01 b p)).
Proof.
  intros b nb p [Lb Pb] [Ln Pn] Hl Hp.
  assert (forall d, (d < length p)%nat -> nth d (bmax b) 0 - nth d (bmin b) 0 > 0) as P1 by (intros d Hd; specialize (Pb d); lra || (specialize (Pb ltac:(lia)); lra)).
  assert (forall d, (d < length p)%nat -> nth d (bmax nb) 0 - nth d (bmin nb) 0 > 0) as P2 by (intros d Hd; specialize (Pn d ltac:(lia)); lra).
  split; [|split; [|split; [|split; [|split; [|split; [|split; [|split]]]]]]].
  - apply (list_eq_nth 0); [rewrite from01_len, to01_len; rewrite ?to01_len; lia|].
    rewrite from01_len by (rewrite ?to01_len; lia). rewrite to01_len by lia. intros d Hd. specialize (P1 d Hd).
    rewrite from01_nth by (rewrite ?to01_len; lia). rewrite to01_nth by lia. field. lra.
  - apply (list_eq_nth 0); [rewrite to01_len, from01_len; rewrite ?from01_len; lia|].
    rewrite to01_len by (rewrite ?from01_len; lia). rewrite from01_len by lia. intros d Hd. specialize (P1 d Hd).
    rewrite to01_nth by (rewrite ?from01_len; lia). rewrite from01_nth by lia. field. lra.
  - apply (list_eq_nth 0); [rewrite tonew_len, tonew_len; rewrite ?tonew_len; lia|].
    rewrite tonew_len by (rewrite ?tonew_len; lia). rewrite tonew_len by lia. intros d Hd. specialize (P1 d Hd). specialize (P2 d Hd).
    rewrite tonew_nth by (rewrite ?tonew_len; lia). rewrite tonew_nth by lia. field. lra.
  - apply (list_eq_nth 0); rewrite tonew_len by lia; [lia|]. intros d Hd. rewrite tonew_nth by lia. specialize (P1 d ltac:(lia)). field. lra.
  - apply (list_eq_nth 0); rewrite tonew_len by lia; [lia|]. intros d Hd. rewrite tonew_nth by lia. specialize (P1 d ltac:(lia)). field. lra.
  - apply (list_eq_nth 0); [rewrite from01_len, to01_len, tonew_len; rewrite ?to01_len; lia|].
    rewrite from01_len by (rewrite ?to01_len; lia). rewrite to01_len by lia. intros d Hd. specialize (P1 d Hd).
    rewrite from01_nth by (rewrite ?to01_len; lia). rewrite to01_nth, tonew_nth by lia. field. lra.
  - intros (_ & _ & Hin). split; [rewrite tonew_len; lia|]. split; [rewrite tonew_len; lia|].
    rewrite tonew_len by lia. intros d Hd. rewrite tonew_nth by lia. specialize (Hin d Hd). specialize (P1 d Hd). specialize (P2 d Hd).
    pose proof (ratio_bounds (nth d (bmin b) 0) (nth d (bmax b) 0) (nth d p 0) ltac:(lra) Hin) as HR.
    replace ((nth d p 0 - nth d (bmin b) 0) * (nth d (bmax nb) 0 - nth d (bmin nb) 0) / (nth d (bmax b) 0 - nth d (bmin b) 0))
      with ((nth d p 0 - nth d (bmin b) 0) / (nth d (bmax b) 0 - nth d (bmin b) 0) * (nth d (bmax nb) 0 - nth d (bmin nb) 0)) by (field; lra).
    nra.
  - intros (_ & _ & Hin) d Hd. rewrite to01_nth by lia. apply ratio_bounds; auto. specialize (P1 d Hd). lra.
  - intros H01. split; [rewrite from01_len; lia|]. split; [rewrite from01_len; lia|].
    rewrite from01_len by lia. intros d Hd. rewrite from01_nth by lia. specialize (H01 d Hd). specialize (P1 d Hd). nra.
Qed.

Lemma all_leR_iff a : forall b, length a = length b -> (all_leR a b = true <-> forall d, (d < length a)%nat -> nth d a 0 <= nth d b 0).
Proof.
  induction a as [|x a IH]; intros [|y b] Hl; simpl in *; try lia.
  - split; auto. intros; lia.
  - rewrite andb_true_iff, IH by lia. rewrite Rleb_true. split.
    + intros [H1 H2] [|d] Hd; auto. apply H2. lia.
    + intros H. split; [apply (H O); lia|]. intros d Hd. apply (H (S d)); lia.
Qed.

(** A box with min <= max. *)
Definition wf_box (b : bbox) : Prop := length (bmin b) = length (bmax b) /\ forall d, (d < length (bmin b))%nat -> nth d (bmin b) 0 <= nth d (bmax b) 0.

Lemma C35_lemma : forall b p delta, wf_box b -> length p = length (bmin b) -> 0 <= delta ->
  (let e := box_extend_pt b p in
   wf_box e /\ in_closed (bmin e) (bmax e) p /\ box_within (bmin b) (bmax b) (bmin e) (bmax e) /\
   forall e', wf_box e' -> in_closed (bmin e') (bmax e') p -> box_within (bmin b) (bmax b) (bmin e') (bmax e') ->
     box_within (bmin e) (bmax e) (bmin e') (bmax e')) /\
  (exists e, box_extend b delta = Ret e /\ wf_box e /\ box_within (bmin b) (bmax b) (bmin e) (bmax e) /\
     forall d, (d < length (bmin b))%nat -> nth d (bmin e) 0 = nth d (bmin b) 0 - delta /\ nth d (bmax e) 0 = nth d (bmax b) 0 + delta).
Proof.
  intros [mn mx] p delta [Lb Wb] Hp Hd; cbn [bmin bmax] in *. split.
  - unfold box_extend_pt; cbn [bmin bmax].
    assert (forall d, (d < length mn)%nat -> nth d (map2 Rmin mn p) 0 = Rmin (nth d mn 0) (nth d p 0) /\ nth d (map2 Rmax mx p) 0 = Rmax (nth d mx 0) (nth d p 0)) as E.
    { intros d Hd'. now rewrite !(map2_nth _ 0 0) by lia. }
    assert (length (map2 Rmin mn p) = length mn) as L1 by (rewrite map2_length; lia).
    assert (length (map2 Rmax mx p) = length mx) as L2 by (rewrite map2_length; lia).
    unfold wf_box, in_closed, box_within; cbn [bmin bmax]. rewrite L1, L2.
    split; [|split; [|split]].
    + split; [lia|]. intros d Hd'. destruct (E d Hd') as [-> ->]. specialize (Wb d Hd').
      pose proof (Rmin_l (nth d mn 0) (nth d p 0)). pose proof (Rmax_l (nth d mx 0) (nth d p 0)). lra.
    + split; [lia|]. split; [lia|]. intros d Hd'. destruct (E d ltac:(lia)) as [-> ->]. split; [apply Rmin_r|apply Rmax_r].
    + split; [lia|]. split; [lia|]. intros d Hd'. destruct (E d Hd') as [-> ->]. split; [apply Rmin_l|apply Rmax_l].
    + intros e' [We1 We2] (C1 & C2 & C3) (B1 & B2 & B3). split; [lia|]. split; [lia|].
      intros d Hd'. destruct (E d Hd') as [-> ->]. specialize (C3 d ltac:(lia)). specialize (B3 d Hd').
      split; [apply Rmin_glb; lra|apply Rmax_lub; lra].
  - unfold box_extend, box_set. cbn [bmin bmax].
    assert (forall d, (d < length mn)%nat -> nth d (map (fun x => x - delta) mn) 0 = nth d mn 0 - delta) as E1.
    { intros d Hd'. rewrite (nth_indep _ 0 ((fun x => x - delta) 0)) by now rewrite map_length. apply (map_nth (fun x => x - delta)). }
    assert (forall d, (d < length mx)%nat -> nth d (map (fun x => x + delta) mx) 0 = nth d mx 0 + delta) as E2.
    { intros d Hd'. rewrite (nth_indep _ 0 ((fun x => x + delta) 0)) by now rewrite map_length. apply (map_nth (fun x => x + delta)). }
    rewrite assert_true.
    2:{ apply all_leR_iff; rewrite !map_length; auto. intros d Hd'. rewrite E1, E2 by lia. specialize (Wb d Hd'). lra. }
    eexists. split; [reflexivity|]. unfold wf_box, box_within. cbn [bmin bmax]. rewrite !map_length.
    split; [|split].
    + split; auto. intros d Hd'. rewrite E1, E2 by lia. specialize (Wb d Hd'). lra.
    + split; [auto|]. split; [auto|]. intros d Hd'. rewrite E1, E2 by lia. lra.
    + intros d Hd'. rewrite E1, E2 by lia. split; reflexivity.
Qed.
