From Verif Require Import M_Classify S_Classify L_Real L_Domain.
From Coq Require Import Lra.
Open Scope R_scope.

Lemma eps_small : 0 < default_tol < / 4.
Proof.
  unfold default_tol, eps. assert (2 ^ 52 = 4503599627370496) as -> by (simpl; ring_simplify; lra). lra.
Qed.

Lemma fold_sum (q : rule) : forall a, fold_left (fun a nw => a + snd nw) q a = a + fold_right (fun nw a => snd nw + a) 0 q.
Proof. induction q as [|nw q IH]; intros a; simpl; [lra|]. rewrite IH. lra. Qed.
Lemma sum_weights_spec q : sum_weights q = fold_right (fun nw a => snd nw + a) 0 q.
Proof. unfold sum_weights. rewrite fold_sum. lra. Qed.

Lemma covers_spec q area : equal_rel2 default_tol (sum_weights q) area (default_tol * 1000) = true <-> covers q area.
Proof.
  unfold equal_rel2, covers. rewrite Rleb_true, sum_weights_spec.
  set (v := fold_right _ _ _). replace (if Rltb (Rabs v) (Rabs area) then Rabs area else Rabs v) with (Rmax (Rabs v) (Rabs area)); [lra|].
  unfold Rmax. destruct (Rltb_spec (Rabs v) (Rabs area)), (Rle_dec (Rabs v) (Rabs area)); lra.
Qed.

Definition onb (b : bool) (P : Prop) : Prop := b = true <-> P.

Lemma flags_spec phi grad dir side q : forall e u c,
  let '(e', u', c') := fold_left (facet_node phi grad dir side) q (e, u, c) in
  (e' = true <-> e = true \/ some_inward phi grad dir side q) /\
  (u' = true <-> u = true \/ some_outward phi grad dir side q) /\
  (c' = true <-> c = true \/ some_off phi q).
Proof.
  pose proof eps_small as He.
  induction q as [|[x w] q IH]; intros e u c.
  - simpl. unfold some_inward, some_outward, some_off. repeat split; auto; intros [H|(x & w & [] & _)]; auto.
  - cbn [fold_left].
    assert (some_inward phi grad dir side ((x, w) :: q) <-> some_inward phi grad dir side q \/ (Rabs (phi x) <= default_tol /\ vec_norm (grad x) <> 0 /\
  Rabs (nth dir (grad x) 0 / vec_norm (grad x) + outer side) <= default_tol)) as H1.
    { unfold some_inward. split.
      - intros (y & v & [E|Hin] & H); [injection E as <- <-; auto|left; eauto].
      - intros [(y & v & Hin & H)|H]; [exists y, v; simpl; auto|exists x, w; simpl; auto]. }
    assert (some_outward phi grad dir side ((x, w) :: q) <-> some_outward phi grad dir side q \/ (Rabs (phi x) <= default_tol /\ vec_norm (grad x) <> 0 /\
  Rabs (nth dir (grad x) 0 / vec_norm (grad x) - outer side) <= default_tol)) as H2.
    { unfold some_outward. split.
      - intros (y & v & [E|Hin] & H); [injection E as <- <-; auto|left; eauto].
      - intros [(y & v & Hin & H)|H]; [exists y, v; simpl; auto|exists x, w; simpl; auto]. }
    assert (some_off phi ((x, w) :: q) <-> some_off phi q \/ default_tol < Rabs (phi x)) as H3.
    { unfold some_off. split.
      - intros (y & v & [E|Hin] & H); [injection E as <- <-; auto|left; eauto].
      - intros [(y & v & Hin & H)|H]; [exists y, v; simpl; auto|exists x, w; simpl; auto]. }
    set (fl := facet_node phi grad dir side (e, u, c) (x, w)).
    assert (let '(e1, u1, c1) := fl in (e1 = true <-> e = true \/ (Rabs (phi x) <= default_tol /\ vec_norm (grad x) <> 0 /\
  Rabs (nth dir (grad x) 0 / vec_norm (grad x) + outer side) <= default_tol)) /\
      (u1 = true <-> u = true \/ (Rabs (phi x) <= default_tol /\ vec_norm (grad x) <> 0 /\
  Rabs (nth dir (grad x) 0 / vec_norm (grad x) - outer side) <= default_tol)) /\ (c1 = true <-> c = true \/ default_tol < Rabs (phi x))) as Hfl.
    { unfold fl, facet_node. cbn [fst]. unfold is_zero. destruct (Rleb_spec (Rabs (phi x)) default_tol) as [Hz|Hz].
      2:{ repeat split; try tauto; try (intros [H|(H & _)]; [auto|contradiction]); intros _. right. lra. }
      destruct (Reqb_spec (vec_norm (grad x)) 0) as [Hn|Hn].
      { repeat split; try tauto; try (intros [H|H]; [auto|exfalso; lra || tauto]). }
      set (comp := nth dir (grad x) 0 / vec_norm (grad x)).
      unfold tol_equal, is_negative, is_positive, outer.
      destruct (Rleb_spec (Rabs (Rabs comp - 1)) default_tol) as [Hc|Hc]; cbn [negb].
      - destruct (Nat.eqb side 0).
        + destruct (Rltb_spec comp (- default_tol)) as [Hs|Hs].
          * assert (Rabs (comp - -1) <= default_tol) by (revert Hc; unfold Rabs; repeat destruct (Rcase_abs _); lra).
            repeat split; try tauto; try (intros [H'|(_ & _ & H')]; [auto|exfalso; revert H' Hs; unfold Rabs; destruct (Rcase_abs _); lra]); try (intros [H'|H']; [auto|exfalso; lra]).
          * assert (Rabs (comp + -1) <= default_tol) by (revert Hc; unfold Rabs; repeat destruct (Rcase_abs _); lra).
            repeat split; try tauto; try (intros [H'|(_ & _ & H')]; [auto|exfalso; revert H' Hs; unfold Rabs; destruct (Rcase_abs _); lra]); try (intros [H'|H']; [auto|exfalso; lra]).
        + destruct (Rltb_spec default_tol comp) as [Hs|Hs].
          * assert (Rabs (comp - 1) <= default_tol) by (revert Hc; unfold Rabs; repeat destruct (Rcase_abs _); lra).
            repeat split; try tauto; try (intros [H'|(_ & _ & H')]; [auto|exfalso; revert H' Hs; unfold Rabs; destruct (Rcase_abs _); lra]); try (intros [H'|H']; [auto|exfalso; lra]).
          * assert (Rabs (comp + 1) <= default_tol) by (revert Hc; unfold Rabs; repeat destruct (Rcase_abs _); lra).
            repeat split; try tauto; try (intros [H'|(_ & _ & H')]; [auto|exfalso; revert H' Hs; unfold Rabs; destruct (Rcase_abs _); lra]); try (intros [H'|H']; [auto|exfalso; lra]).
      - assert (~ Rabs (comp - (if Nat.eqb side 0 then -1 else 1)) <= default_tol) by (intros H; apply Hc; revert H; destruct (Nat.eqb side 0); unfold Rabs; repeat destruct (Rcase_abs _); lra).
        assert (~ Rabs (comp + (if Nat.eqb side 0 then -1 else 1)) <= default_tol) by (intros H'; apply Hc; revert H'; destruct (Nat.eqb side 0); unfold Rabs; repeat destruct (Rcase_abs _); lra).
        repeat split; try tauto; intros [H'|H']; [auto|exfalso; lra]. }
    destruct fl as [[e1 u1] c1]. specialize (IH e1 u1 c1). destruct (fold_left _ q (e1, u1, c1)) as [[e' u'] c'].
    rewrite H1, H2, H3. tauto.
Qed.

Lemma classic_nil {A} (l : list A) : l = [] \/ l <> [].
Proof. destruct l; [left|right]; congruence. Qed.
Lemma C24_lemma : forall phi grad dom facet cell q,
  length (bmax dom) = length (bmin dom) ->
  (0 <= facet < Z.of_nat (length (bmin dom)) * 2)%Z -> (cell = Tcut \/ cell = Tfull_unf) ->
  let dir := Z.to_nat (facet / 2) in let side := Z.to_nat (facet mod 2) in
  let off := some_off phi q in let outw := some_outward phi grad dir side q in let inw := some_inward phi grad dir side q in
  let cov := covers q (fold_right Rmult 1 (remove_component dir (map2 Rminus (bmax dom) (bmin dom)))) in
  exists st, classify_facet phi grad dom facet cell q = Ret st /\
    (q = [] -> st = match cell with Tfull_unf => Ffull_unf | _ => Fempty end) /\
    (q <> [] -> cell = Tfull_unf -> ~ off -> st = Ffull_unf) /\
    (q <> [] -> cell = Tcut \/ off ->
       (st_is_cut st = true <-> off /\ (outw \/ inw \/ ~ cov)) /\
       (st = Ffull <-> off /\ ~ outw /\ ~ inw /\ cov) /\
       (st_has_unf st = true <-> outw) /\ (st_has_ext st = true <-> inw) /\
       (st = Ffull_unf <-> ~ off /\ outw /\ ~ inw /\ cov /\ length q = 1%nat) /\
       (st = Ffull_ext <-> ~ off /\ ~ outw /\ inw /\ cov /\ length q = 1%nat)).
Proof.
  intros phi grad dom facet cell q Hlen Hf Hcell dir side off outw inw cov.
  unfold classify_facet. rewrite assert_true by lia.
  assert (match cell with Tempty => Ret Fempty | Tfull => Ret Ffull | _ => classify_facet_from_quad phi grad dom facet cell q end = classify_facet_from_quad phi grad dom facet cell q) as ->.
  { destruct Hcell; subst; reflexivity. }
  unfold classify_facet_from_quad. rewrite assert_true by (destruct Hcell; subst; reflexivity).
  destruct (classic_nil q) as [Eq|Hne].
  { rewrite Eq. eexists. split; [reflexivity|]. split; [destruct Hcell; subst; auto|]. split; congruence. }
  match goal with |- context [match q with [] => ?a | _ :: _ => ?b end] => replace (match q with [] => a | _ :: _ => b end) with b by (destruct q; [congruence|reflexivity]) end.
  unfold facet_const_dir, facet_side. rewrite !assert_true by lia. cbn [bind].
  fold dir side. 
  pose proof (flags_spec phi grad dir side q false false false) as Hfl.
  destruct (fold_left (facet_node phi grad dir side) q (false, false, false)) as [[e u] c].
  assert (e = true <-> inw) as He by (unfold inw; destruct Hfl as (H & _); split; [intros E; destruct (proj1 H E) as [X|X]; [discriminate|exact X]|intros E; apply H; right; exact E]).
  assert (u = true <-> outw) as Hu by (unfold outw; destruct Hfl as (_ & H & _); split; [intros E; destruct (proj1 H E) as [X|X]; [discriminate|exact X]|intros E; apply H; right; exact E]).
  assert (c = true <-> off) as Hc by (unfold off; destruct Hfl as (_ & _ & H); split; [intros E; destruct (proj1 H E) as [X|X]; [discriminate|exact X]|intros E; apply H; right; exact E]).
  clear Hfl. cbn [snd].
  assert (facet_area dom dir = fold_right Rmult 1 (remove_component dir (map2 Rminus (bmax dom) (bmin dom)))) as Ea.
  { unfold facet_area, box_lengths. generalize (remove_component dir (map2 Rminus (bmax dom) (bmin dom))). clear.
    assert (forall l a, fold_left Rmult l a = a * fold_right Rmult 1 l) as H by (induction l as [|x l IH]; intros a; simpl; [lra|rewrite IH; lra]).
    intros l. rewrite H. lra. }
  pose proof (covers_spec q (facet_area dom dir)) as Hcov. rewrite Ea in Hcov. fold cov in Hcov. rewrite Ea.
  unfold classify_facet_full_unf.
  set (cb := equal_rel2 _ _ _ _) in *. 
  clearbody cov cb off outw inw. 
  assert ((match cell with Tfull_unf => true | _ => false end) && negb c = true <-> cell = Tfull_unf /\ ~ off) as Hb.
  { rewrite <- Hc. destruct Hcell; subst cell; destruct c; simpl; intuition congruence. }
  destruct ((match cell with Tfull_unf => true | _ => false end) && negb c) eqn:Ebr.
  - destruct (proj1 Hb eq_refl) as [Hfu Hno]. eexists. split; [reflexivity|]. split; [congruence|]. split; [auto|].
    intros _ [H|H]; [congruence|tauto].
  - eexists. split; [reflexivity|]. split; [congruence|]. split.
    { intros _ H1 H2. assert (false = true) by tauto. discriminate. }
    intros _ _. rewrite <- He, <- Hu, <- Hc, <- Hcov.
    destruct (Nat.eqb_spec (length q) 1) as [H1|H1];
    destruct e, u, c, cb; cbn; intuition (try congruence).
Qed.

Lemma C24_cell_lemma : forall q dom,
  let vol := fold_right (fun nw a => snd nw + a) 0 q in
  (classify_cell_from_quad q dom = Tempty <-> Rabs vol <= default_tol) /\
  (classify_cell_from_quad q dom = Tfull_unf <-> default_tol < Rabs vol /\ Rabs (vol - box_volume dom) <= default_tol) /\
  (classify_cell_from_quad q dom = Tcut <-> default_tol < Rabs vol /\ default_tol < Rabs (vol - box_volume dom)) /\
  classify_cell_from_quad q dom <> Tfull.
Proof.
  intros q dom vol. unfold classify_cell_from_quad, tol_equal. rewrite sum_weights_spec. fold vol. rewrite Rminus_0_r.
  destruct (Rleb_spec (Rabs vol) default_tol) as [H|H].
  - repeat split; try congruence; auto; intros; lra.
  - destruct (Rleb_spec (Rabs (vol - box_volume dom)) default_tol) as [H'|H']; repeat split; try congruence; auto; intros; lra.
Qed.

(** ** C25 *)
Lemma C25_lemma : forall dim,
  (forall f, (0 <= f < dim * 2)%Z -> exists d s, facet_const_dir dim f = Ret d /\ facet_side dim f = Ret s /\
      (0 <= d < dim)%Z /\ (s = 0 \/ s = 1)%Z /\ local_facet_id dim d s = Ret f) /\
  (forall d s, (0 <= d < dim)%Z -> (s = 0 \/ s = 1)%Z -> exists f, local_facet_id dim d s = Ret f /\ (0 <= f < dim * 2)%Z /\
      facet_const_dir dim f = Ret d /\ facet_side dim f = Ret s).
Proof.
  intros dim. unfold facet_const_dir, facet_side, local_facet_id. split.
  - intros f Hf. exists (f / 2)%Z, (f mod 2)%Z. rewrite !assert_true by lia.
    pose proof (Z.div_mod f 2). pose proof (Z.mod_pos_bound f 2).
    split; auto. split; auto. split; [lia|]. split; [lia|]. rewrite !assert_true by lia. f_equal. lia.
  - intros d s Hd Hs. exists (d * 2 + s)%Z. rewrite !assert_true by lia. split; auto. split; [lia|].
    assert ((d * 2 + s) / 2 = d)%Z by (symmetry; apply (Z.div_unique _ _ _ s); lia).
    assert ((d * 2 + s) mod 2 = s)%Z by (symmetry; apply (Z.mod_unique _ _ d); lia). split; f_equal; auto.
Qed.
Lemma C25_edges_lemma :
  (forall e, (0 <= e < 12)%Z -> exists d1 d2 s1 s2, edge_const_dirs3 e = Ret (d1, d2) /\ edge_sides3 e = Ret (s1, s2) /\
      (0 <= d1 < d2)%Z /\ (d2 < 3)%Z /\ (s1 = 0 \/ s1 = 1)%Z /\ (s2 = 0 \/ s2 = 1)%Z) /\
  (forall d1 d2 s1 s2, (0 <= d1 < d2)%Z -> (d2 < 3)%Z -> (s1 = 0 \/ s1 = 1)%Z -> (s2 = 0 \/ s2 = 1)%Z ->
      exists e, (0 <= e < 12)%Z /\ (forall e', (0 <= e' < 12)%Z -> (edge_const_dirs3 e' = Ret (d1, d2) /\ edge_sides3 e' = Ret (s1, s2) <-> e' = e))).
Proof.
  assert (forall e, (0 <= e < 12)%Z -> In e [0;1;2;3;4;5;6;7;8;9;10;11]%Z) as Hall by (intros; simpl; lia).
  split.
  - intros e He. apply Hall in He. simpl in He.
    repeat (destruct He as [<-|He]; [do 4 eexists; split; [reflexivity|]; split; [reflexivity|]; cbn; lia|]). contradiction.
  - intros d1 d2 s1 s2 H1 H2 H3 H4.
    exists ((if (d1 =? 1)%Z then 8 else if (d2 =? 2)%Z then 4 else 0) + 2 * s2 + s1)%Z.
    assert ((d1 = 0 /\ d2 = 1) \/ (d1 = 0 /\ d2 = 2) \/ (d1 = 1 /\ d2 = 2))%Z as Hd by lia.
    destruct Hd as [[-> ->]|[[-> ->]|[-> ->]]], H3 as [-> | ->], H4 as [-> | ->]; cbn; (split; [lia|]);
      intros e' He'; apply Hall in He'; simpl in He';
      repeat (destruct He' as [<-|He']; [cbn; split; [intros [E1 E2]; try discriminate E1; try discriminate E2; reflexivity|intros E; try discriminate E; split; reflexivity]|]); contradiction.
Qed.

(** ** C73: the tolerance is absolute. *)
Lemma C73_refuted_lemma : exists q dom, Forall (fun nw => 0 < snd nw) q /\ 0 < box_volume dom /\
  fold_right (fun nw a => snd nw + a) 0 q = box_volume dom /\ classify_cell_from_quad q dom = Tempty.
Proof.
  pose proof eps_small as He.
  exists [([default_tol / 2], default_tol)], {| bmin := [0]; bmax := [default_tol] |}.
  assert (box_volume {| bmin := [0]; bmax := [default_tol] |} = default_tol) as Hv by (cbn; lra).
  split; [repeat constructor; cbn; lra|]. rewrite Hv. split; [lra|]. split; [cbn; lra|].
  apply C24_cell_lemma. cbn. rewrite Rplus_0_r, Rabs_pos_eq; lra.
Qed.
Lemma C73_partial_lemma : forall q dom, let vol := fold_right (fun nw a => snd nw + a) 0 q in
  2 * default_tol < box_volume dom ->
  (vol = box_volume dom -> classify_cell_from_quad q dom = Tfull_unf) /\
  (vol = 0 -> classify_cell_from_quad q dom = Tempty) /\
  (default_tol < vol < box_volume dom - default_tol -> classify_cell_from_quad q dom = Tcut).
Proof.
  intros q dom vol Hb. pose proof eps_small as He.
  destruct (C24_cell_lemma q dom) as (H1 & H2 & H3 & _). fold vol in H1, H2, H3. split; [|split].
  - intros E. apply H2. rewrite E, Rminus_diag_eq by reflexivity. rewrite Rabs_R0, Rabs_pos_eq; lra.
  - intros E. apply H1. rewrite E, Rabs_R0. lra.
  - intros E. apply H3. rewrite Rabs_pos_eq, Rabs_left; lra.
Qed.
