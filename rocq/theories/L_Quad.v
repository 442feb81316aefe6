From Verif Require Import M_Quad S_Quad L_Real L_Domain L_DomainQ L_DomainT L_QuadTP.
From Coq Require Import Lra.
Open Scope R_scope.

Definition out {A B} (m : outcome (A * B)) : outcome A := x <- m ;; Ret (fst x).

Lemma bind_ret {A} (m : outcome A) : (x <- m ;; Ret x) = m.
Proof. destruct m; reflexivity. Qed.
Lemma bind_assoc {A B C} (m : outcome A) (f : A -> outcome B) (g : B -> outcome C) : bind (bind m f) g = bind m (fun x => bind (f x) g).
Proof. destruct m; reflexivity. Qed.
Lemma bind_ext {A B} (m : outcome A) (f g : A -> outcome B) : (forall a, m = Ret a -> f a = g a) -> bind m f = bind m g.
Proof. destruct m; simpl; auto. Qed.
Lemma assert_ext {A} b (k k' : outcome A) : (b = true -> k = k') -> assert_ b k = assert_ b k'.
Proof. destruct b; simpl; auto. Qed.
Lemma assert_bind {A B} b (k : outcome A) (f : A -> outcome B) : bind (assert_ b k) f = assert_ b (bind k f).
Proof. destruct b; reflexivity. Qed.
Lemma assert_inv {A} b (k : outcome A) r : assert_ b k = Ret r -> b = true /\ k = Ret r.
Proof. destruct b; simpl; intros; auto; discriminate. Qed.
Lemma bind_inv {A B} (m : outcome A) (f : A -> outcome B) r : bind m f = Ret r -> exists a, m = Ret a /\ f a = Ret r.
Proof. destruct m; simpl; intros; try discriminate. eauto. Qed.

(** ** Erasing *)
Lemma keep_none {A} ids : forall (l : list A) k, (forall i, In i ids -> (i < k \/ k + Z.of_nat (length l) <= i)%Z) -> keep_from k ids l = l.
Proof.
  induction l as [|x l IH]; intros k H; cbn [keep_from]; auto.
  destruct (in_dec Z.eq_dec k ids) as [Hin|Hin].
  - exfalso. specialize (H k Hin). cbn [length] in H. lia.
  - f_equal. apply IH. intros i Hi. specialize (H i Hi). cbn [length] in H. lia.
Qed.
Lemma keep_app {A} ids : forall (a b : list A) k, keep_from k ids (a ++ b) = keep_from k ids a ++ keep_from (k + Z.of_nat (length a)) ids b.
Proof.
  induction a as [|x a IH]; intros b k; cbn [keep_from app length].
  - f_equal. lia.
  - rewrite IH. replace (k + 1 + Z.of_nat (length a))%Z with (k + Z.of_nat (S (length a)))%Z by lia.
    destruct (in_dec Z.eq_dec k ids); reflexivity.
Qed.
Lemma keep_cons_out {A} i ids : forall (l : list A) k, (i < k \/ k + Z.of_nat (length l) <= i)%Z -> keep_from k (i :: ids) l = keep_from k ids l.
Proof.
  induction l as [|x l IH]; intros k H; cbn [keep_from]; auto. cbn [length] in H.
  rewrite IH by lia. destruct (in_dec Z.eq_dec k (i :: ids)) as [H1|H1], (in_dec Z.eq_dec k ids) as [H2|H2]; auto.
  - destruct H1; [lia|contradiction].
  - exfalso. apply H1. right. auto.
Qed.
Lemma keep_ext {A} ids ids' : (forall i, In i ids <-> In i ids') -> forall (l : list A) k, keep_from k ids l = keep_from k ids' l.
Proof.
  intros H. induction l as [|x l IH]; intros k; cbn [keep_from]; auto. rewrite IH.
  destruct (in_dec Z.eq_dec k ids) as [H1|H1], (in_dec Z.eq_dec k ids') as [H2|H2]; auto; exfalso; [apply H2|apply H1]; apply H; auto.
Qed.
Lemma split_at {A} (l : list A) n : (n < length l)%nat -> exists a x b, l = a ++ x :: b /\ length a = n.
Proof.
  revert n. induction l as [|y l IH]; intros [|n] H; simpl in H; try lia.
  - exists [], y, l. auto.
  - destruct (IH n) as (a & x & b & -> & Hl); [lia|]. exists (y :: a), x, b. simpl. auto.
Qed.
Lemma erase_at_ok {A} (l : list A) i : (0 <= i < Z.of_nat (length l))%Z -> exists r, erase_at l i = Ret r /\
  Z.of_nat (length r) = (Z.of_nat (length l) - 1)%Z /\
  forall ids, (forall j, In j ids -> (j < i)%Z) -> keep_from 0 ids r = keep_from 0 (i :: ids) l.
Proof.
  intros Hi. unfold erase_at. destruct (Z.leb_spec 0 i); [|lia]. destruct (Z.ltb_spec i (Z.of_nat (length l))); [|lia]. cbn [andb].
  destruct (split_at l (Z.to_nat i)) as (a & x & b & -> & Ha); [lia|].
  eexists. split; [reflexivity|].
  assert (firstn (Z.to_nat i) (a ++ x :: b) = a) as E1 by (rewrite <- Ha, firstn_app, firstn_all, Nat.sub_diag; cbn; now rewrite app_nil_r).
  assert (skipn (S (Z.to_nat i)) (a ++ x :: b) = b) as E2.
  { rewrite <- Ha. replace (S (length a)) with (length (a ++ [x])) by (rewrite app_length; simpl; lia).
    replace (a ++ x :: b) with ((a ++ [x]) ++ b) by (rewrite <- app_assoc; reflexivity).
    rewrite skipn_app, skipn_all, Nat.sub_diag. reflexivity. }
  rewrite E1, E2. rewrite !app_length. simpl. split; [lia|].
  intros ids Hids. rewrite !keep_app. cbn [keep_from]. replace (0 + Z.of_nat (length a))%Z with i by lia.
  destruct (in_dec Z.eq_dec i (i :: ids)) as [_|N]; [|exfalso; apply N; left; auto].
  rewrite keep_cons_out by lia. rewrite keep_cons_out by lia. f_equal.
  rewrite !keep_none; auto; intros j Hj; specialize (Hids j Hj); lia.
Qed.

(** Strictly descending lists of valid positions. *)
Definition desc (m : Z) (ids : list Z) : Prop := StronglySorted Z.gt ids /\ Forall (fun i => 0 <= i < m)%Z ids.
Lemma rev_sorted_gt l : StronglySorted Z.lt l -> StronglySorted Z.gt (rev l).
Proof.
  induction 1 as [|x l Hs IH Hf]; simpl; [constructor|].
  assert (forall a b, StronglySorted Z.gt a -> StronglySorted Z.gt b -> (forall u v, In u a -> In v b -> (u > v)%Z) -> StronglySorted Z.gt (a ++ b)) as Happ.
  { induction a as [|u a IHa]; intros b Ha Hb Hab; simpl; auto. inversion Ha; subst. constructor.
    - apply IHa; auto. intros; apply Hab; auto. right; auto.
    - apply Forall_app. split; auto. apply Forall_forall. intros v Hv. apply Hab; auto. left; auto. }
  apply Happ; auto; [repeat constructor|]. intros u v Hu [<-|[]]. apply in_rev in Hu. rewrite Forall_forall in Hf. specialize (Hf u Hu). lia.
Qed.
Lemma desc_of m ids : NoDup ids -> Forall (fun i => 0 <= i < m)%Z ids -> desc m (rev (zsort ids)).
Proof.
  intros Hn Hf. split; [apply rev_sorted_gt, zsort_lt; auto|].
  apply Forall_forall. intros i Hi. apply in_rev in Hi. rewrite zsort_in in Hi. rewrite Forall_forall in Hf. exact (Hf i Hi).
Qed.

Definition erase1 {A} (ids : list Z) (l : list A) : outcome (list A) := foldM (fun i l => erase_at l i) ids l.
Lemma desc_tail m i ids : desc m (i :: ids) -> desc (m - 1) ids /\ (0 <= i < m)%Z /\ forall j, In j ids -> (j < i)%Z.
Proof.
  intros [Hs Hf]. inversion Hs; subst. inversion Hf; subst. rewrite Forall_forall in *.
  split; [split; auto; apply Forall_forall|split; auto].
  - intros j Hj. specialize (H2 j Hj). specialize (H4 j Hj). lia.
  - intros j Hj. specialize (H2 j Hj). lia.
Qed.

Lemma erase_iso_fold : forall ids q, desc (Z.of_nat (length (iq_pts q))) ids -> length (iq_pts q) = length (iq_wts q) ->
  foldM (fun i q => p <- erase_at (iq_pts q) i ;; w <- erase_at (iq_wts q) i ;; Ret (mk_iq (iq_cells q) (iq_facets q) (iq_n q) p w)) ids q =
  Ret (mk_iq (iq_cells q) (iq_facets q) (iq_n q) (keep_from 0 ids (iq_pts q)) (keep_from 0 ids (iq_wts q))).
Proof.
  induction ids as [|i ids IH]; intros q Hd Hl; cbn [foldM].
  - rewrite !keep_none by (intros ? []). now destruct q.
  - apply desc_tail in Hd as (Hd & Hi & Hlt).
    destruct (erase_at_ok (iq_pts q) i Hi) as (p & -> & Hp & Kp). cbn [bind].
    destruct (erase_at_ok (iq_wts q) i) as (w & -> & Hw & Kw); [lia|]. cbn [bind].
    rewrite IH; cbn; [rewrite Kp, Kw by auto; reflexivity| |lia]. now rewrite Hp.
Qed.
Lemma erase_unf_fold : forall ids q, desc (Z.of_nat (length (uq_pts q))) ids -> length (uq_pts q) = length (uq_wts q) -> length (uq_pts q) = length (uq_nrm q) ->
  foldM (fun i q => p <- erase_at (uq_pts q) i ;; w <- erase_at (uq_wts q) i ;; m <- erase_at (uq_nrm q) i ;; Ret (mk_uq (uq_cells q) (uq_n q) p w m)) ids q =
  Ret (mk_uq (uq_cells q) (uq_n q) (keep_from 0 ids (uq_pts q)) (keep_from 0 ids (uq_wts q)) (keep_from 0 ids (uq_nrm q))).
Proof.
  induction ids as [|i ids IH]; intros q Hd Hl Hl2; cbn [foldM].
  - rewrite !keep_none by (intros ? []). now destruct q.
  - apply desc_tail in Hd as (Hd & Hi & Hlt).
    destruct (erase_at_ok (uq_pts q) i Hi) as (p & -> & Hp & Kp). cbn [bind].
    destruct (erase_at_ok (uq_wts q) i) as (w & -> & Hw & Kw); [lia|]. cbn [bind].
    destruct (erase_at_ok (uq_nrm q) i) as (m & -> & Hm & Km); [lia|]. cbn [bind].
    rewrite IH; cbn; [rewrite Kp, Kw, Km by auto; reflexivity| |lia|lia]. now rewrite Hp.
Qed.

Lemma keep_length {A} ids : NoDup ids -> forall (l : list A) k, Forall (fun i => k <= i < k + Z.of_nat (length l))%Z ids ->
  Z.of_nat (length (keep_from k ids l)) = (Z.of_nat (length l) - Z.of_nat (length ids))%Z.
Proof.
  intros Hn l. revert ids Hn. induction l as [|x l IH]; intros ids Hn k Hf.
  - destruct ids as [|i ids]; [reflexivity|]. inversion Hf; subst. simpl in *. lia.
  - cbn [keep_from]. rewrite Forall_forall in Hf. destruct (in_dec Z.eq_dec k ids) as [Hin|Hin].
    + apply in_split in Hin as (a & b & ->).
      assert (NoDup (a ++ b)) as Hn' by (apply NoDup_remove_1 in Hn; auto).
      assert (~ In k (a ++ b)) as Hk by (apply NoDup_remove_2 in Hn; auto).
      rewrite (keep_ext _ (k :: (a ++ b))) by (intros i; rewrite !in_app_iff; simpl; rewrite in_app_iff; tauto).
      rewrite keep_cons_out by lia. rewrite (IH _ Hn' (k + 1)%Z).
      * rewrite !app_length. cbn [length]. lia.
      * apply Forall_forall. intros i Hi. assert (i <> k) by (intros ->; auto). assert (In i (a ++ k :: b)) as Hi' by (apply in_app_iff in Hi as [Hi|Hi]; apply in_app_iff; [left|right; right]; auto).
        specialize (Hf i Hi'). cbn [length] in Hf. lia.
    + cbn [length]. rewrite Nat2Z.inj_succ, IH; auto; [lia|]. apply Forall_forall. intros i Hi.
      assert (i <> k) by (intros ->; auto). specialize (Hf i Hi). cbn [length] in Hf. lia.
Qed.

Lemma C28_iso_lemma : forall ids q, NoDup ids -> iq_n q <> [] -> Forall (fun i => 0 <= i < Z.of_nat (length (iq_pts q)))%Z ids -> length (iq_wts q) = length (iq_pts q) ->
  exists q', erase_iso ids q = Ret q' /\ iq_cells q' = iq_cells q /\ iq_facets q' = iq_facets q /\
    iq_pts q' = keep_from 0 ids (iq_pts q) /\ iq_wts q' = keep_from 0 ids (iq_wts q) /\
    Z.of_nat (length (iq_pts q')) = (Z.of_nat (length (iq_pts q)) - Z.of_nat (length ids))%Z /\
    (exists ns n, iq_n q = ns ++ [n] /\ iq_n q' = ns ++ [n - Z.of_nat (length ids)])%Z.
Proof.
  intros ids q Hn Hne Hf Hl. unfold erase_iso.
  rewrite erase_iso_fold; [|apply desc_of; auto|auto]. cbn [bind iq_n iq_cells iq_facets iq_pts iq_wts].
  unfold back_minus. destruct (iq_n q) as [|n0 ns0] eqn:E; [contradiction|]. rewrite <- E in *. cbn [bind].
  eexists. split; [reflexivity|]. cbn.
  assert (forall A (l : list A), keep_from 0 (rev (zsort ids)) l = keep_from 0 ids l) as K.
  { intros. apply keep_ext. intros i. rewrite <- in_rev, zsort_in. tauto. }
  rewrite !K. repeat split; auto.
  - rewrite keep_length; auto.
  - exists (removelast (iq_n q)), (last (iq_n q) 0%Z). split; auto. apply app_removelast_last. rewrite E. discriminate.
Qed.
Lemma C28_unf_lemma : forall ids q, NoDup ids -> uq_n q <> [] -> Forall (fun i => 0 <= i < Z.of_nat (length (uq_pts q)))%Z ids ->
  length (uq_wts q) = length (uq_pts q) -> length (uq_nrm q) = length (uq_pts q) ->
  exists q', erase_unf ids q = Ret q' /\ uq_cells q' = uq_cells q /\
    uq_pts q' = keep_from 0 ids (uq_pts q) /\ uq_wts q' = keep_from 0 ids (uq_wts q) /\ uq_nrm q' = keep_from 0 ids (uq_nrm q) /\
    Z.of_nat (length (uq_pts q')) = (Z.of_nat (length (uq_pts q)) - Z.of_nat (length ids))%Z /\
    (exists ns n, uq_n q = ns ++ [n] /\ uq_n q' = ns ++ [n - Z.of_nat (length ids)])%Z.
Proof.
  intros ids q Hn Hne Hf Hl Hl2. unfold erase_unf.
  rewrite erase_unf_fold; [|apply desc_of; auto|auto|auto]. cbn [bind uq_n uq_cells uq_pts uq_wts uq_nrm].
  unfold back_minus. destruct (uq_n q) as [|n0 ns0] eqn:E; [contradiction|]. rewrite <- E in *. cbn [bind].
  eexists. split; [reflexivity|]. cbn.
  assert (forall A (l : list A), keep_from 0 (rev (zsort ids)) l = keep_from 0 ids l) as K.
  { intros. apply keep_ext. intros i. rewrite <- in_rev, zsort_in. tauto. }
  rewrite !K. repeat split; auto.
  - rewrite keep_length; auto.
  - exists (removelast (uq_n q)), (last (uq_n q) 0%Z). split; auto. apply app_removelast_last. rewrite E. discriminate.
Qed.
