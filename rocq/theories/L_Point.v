From Coq Require Import Reals List Lia Lra Permutation Sorting.Sorted Bool.
From Verif Require Import M_Point S_Point L_Real.
Import ListNotations.
Open Scope R_scope.

Lemma set_at_length {A} (v : list A) : forall i x, length (set_at v i x) = length v.
Proof. induction v as [|y v IH]; intros [|i] x; simpl; auto. Qed.
Lemma set_at_nth {A} (v : list A) d : forall i x j, nth j (set_at v i x) d = if Nat.eqb i j then (if Nat.ltb i (length v) then x else d) else nth j v d.
Proof.
  induction v as [|y v IH]; intros i x j; simpl.
  - destruct j, (Nat.eqb_spec i 0), i; simpl; auto; try (destruct (Nat.eqb _ _)); auto.
  - destruct i as [|i], j as [|j]; simpl; auto. rewrite IH. destruct (Nat.eqb i j); auto.
Qed.

Lemma NoDup_app_remove_r {A} (l l' : list A) : NoDup (l ++ l') -> NoDup l.
Proof. induction l as [|x l IH]; cbn [app]; intros H; [constructor|]. inversion H; subst. constructor; auto. intros K; apply H2; apply in_or_app; auto. Qed.
Lemma NoDup_app_remove_l {A} (l l' : list A) : NoDup (l ++ l') -> NoDup l'.
Proof. induction l as [|x l IH]; cbn [app]; intros H; auto. inversion H; auto. Qed.

(** ** Runs *)
Section Runs.
Variable eqb : nat -> nat -> bool.
Fixpoint chain (l : list nat) : Prop := match l with x :: ((y :: _) as l') => eqb x y = true /\ chain l' | _ => True end.
Lemma runs_concat l : concat (runs eqb l) = l.
Proof.
  induction l as [|x l IH]; simpl; auto. destruct (runs eqb l) as [|[|y g] gs] eqn:E; simpl in *.
  - now subst.
  - destruct l as [|z l]; [reflexivity|]. exfalso. simpl in E. destruct (runs eqb l) as [|[|u g'] gs'] eqn:E'; try congruence. destruct (eqb z u); congruence.
  - subst l. destruct (eqb x y); reflexivity.
Qed.
Lemma runs_ne l : Forall (fun g => g <> []) (runs eqb l).
Proof.
  induction l as [|x l IH]; simpl; auto. destruct (runs eqb l) as [|[|y g] gs] eqn:E; simpl in *.
  - repeat constructor; discriminate.
  - repeat constructor; discriminate.
  - inversion IH; subst. destruct (eqb x y); repeat constructor; auto; discriminate.
Qed.
Lemma runs_chain l : Forall chain (runs eqb l).
Proof.
  induction l as [|x l IH]; simpl; auto. destruct (runs eqb l) as [|[|y g] gs] eqn:E; simpl in *.
  - repeat constructor.
  - repeat constructor.
  - inversion IH; subst. destruct (eqb x y) eqn:Exy; constructor; auto; try (simpl; auto). 
Qed.
(** Consecutive runs are separated by a gap. *)
Fixpoint gaps (gs : list (list nat)) : Prop :=
  match gs with
  | g :: ((h :: _) as gs') => (forall d, eqb (last g d) (hd d h) = false \/ g = [] \/ h = []) /\ gaps gs'
  | _ => True
  end.
Lemma runs_gaps l : gaps (runs eqb l).
Proof.
  induction l as [|x l IH]; simpl; auto. destruct (runs eqb l) as [|[|y g] gs] eqn:E; simpl in *; auto.
  destruct (eqb x y) eqn:Exy.
  - destruct gs as [|h gs]; auto. destruct IH as [H1 H2]. split; auto. intros d. specialize (H1 d).
    destruct H1 as [H1|[H1|H1]]; [left|discriminate|auto]. destruct g; simpl in *; auto.
  - split; [intros d; left; exact Exy|exact IH].
Qed.
End Runs.

Section Spec.
Variable points : list (list R).
Variable tol : R.
Hypothesis tol0 : 0 <= tol.
Notation c := (coord points).
Notation near d := (fun i j => tol_equal tol (c d i) (c d j)).

Lemma near_spec d i j : near d i j = true <-> Rabs (c d i - c d j) <= tol.
Proof. cbv beta. unfold tol_equal. apply Rleb_true. Qed.

(** A sorted chain: bounded spread. *)
Lemma chain_spread d l : chain (near d) l -> forall i j, In i l -> In j l -> Rabs (c d i - c d j) <= INR (length l - 1) * tol.
Proof.
  assert (H : forall l x, chain (near d) (x :: l) -> forall i, In i (x :: l) -> Rabs (c d x - c d i) <= INR (length l) * tol).
  { clear l. induction l as [|y l IH]; intros x Hc i Hi.
    - destruct Hi as [<-|[]]. simpl. rewrite Rminus_eq_0, Rabs_R0. lra.
    - destruct Hc as [Hxy Hc]. apply near_spec in Hxy. destruct Hi as [<-|Hi].
      + rewrite Rminus_eq_0, Rabs_R0. apply Rmult_le_pos; auto. apply pos_INR.
      + specialize (IH y Hc i Hi). change (length (y :: l)) with (S (length l)). rewrite S_INR.
        pose proof (Rabs_triang (c d x - c d y) (c d y - c d i)) as T. replace (c d x - c d y + (c d y - c d i)) with (c d x - c d i) in T by ring. lra. }
  induction l as [|x l IH]; intros Hc i j Hi Hj; [destruct Hi|].
  change (length (x :: l) - 1)%nat with (length l - 0)%nat. rewrite Nat.sub_0_r.
  destruct Hi as [<-|Hi]; [apply H; auto|]. destruct Hj as [<-|Hj]; [rewrite Rabs_minus_sym; apply H; auto; right; auto|].
  assert (Hc' : chain (near d) l) by (destruct l; [simpl; auto|destruct Hc; auto]).
  apply Rle_trans with (INR (length l - 1) * tol); [apply IH; auto|]. apply Rmult_le_compat_r; auto. apply le_INR. lia.
Qed.
Definition trans_on (P : nat -> Prop) : Prop := forall d i j k, P i -> P j -> P k -> Rabs (c d i - c d j) <= tol -> Rabs (c d j - c d k) <= tol -> Rabs (c d i - c d k) <= tol.
Lemma chain_trans (P : nat -> Prop) d l : trans_on P -> Forall P l -> chain (near d) l -> forall i j, In i l -> In j l -> Rabs (c d i - c d j) <= tol.
Proof.
  intros T HP. assert (H : forall l x, Forall P (x :: l) -> chain (near d) (x :: l) -> forall i, In i (x :: l) -> Rabs (c d x - c d i) <= tol).
  { clear l HP. induction l as [|y l IH]; intros x HP Hc i Hi.
    - destruct Hi as [<-|[]]. rewrite Rminus_eq_0, Rabs_R0. lra.
    - destruct Hc as [Hxy Hc]. apply near_spec in Hxy. destruct Hi as [<-|Hi]; [rewrite Rminus_eq_0, Rabs_R0; lra|].
      inversion HP as [|? ? HPx HP']; subst. pose proof HP' as HPa. rewrite Forall_forall in HPa.
      apply (T d x y i); [exact HPx|apply HPa; left; auto|apply HPa; exact Hi|exact Hxy|apply IH; auto]. }
  revert HP. induction l as [|x l IH]; intros HP Hc i j Hi Hj; [destruct Hi|].
  destruct Hi as [<-|Hi]; [apply (H l x HP Hc); auto|]. destruct Hj as [<-|Hj]; [rewrite Rabs_minus_sym; apply (H l x HP Hc); right; auto|].
  assert (Hc' : chain (near d) l) by (destruct l; [simpl; auto|destruct Hc; auto]). inversion HP; auto.
Qed.

(** Result of the search on a set of indices, for the coordinates 0..sd. *)
Definition cond (P : nat -> Prop) (sd : nat) (g : list nat) (m : list nat) : Prop :=
  (forall i, In i g -> In (nth i m O) g /\ nth (nth i m O) m O = nth i m O) /\
  (forall i j, In i g -> In j g -> (forall d, (d <= sd)%nat -> Rabs (c d i - c d j) <= tol) -> nth i m O = nth j m O) /\
  (forall i j, In i g -> In j g -> nth i m O = nth j m O -> forall d, (d <= sd)%nat ->
     Rabs (c d i - c d j) <= INR (length g - 1) * tol /\ (trans_on P -> Rabs (c d i - c d j) <= tol)).
Definition ident (g m : list nat) : Prop := forall i, In i g -> (i < length m)%nat /\ nth i m O = i.
Definition post (P : nat -> Prop) (sd : nat) (g m m' : list nat) : Prop :=
  length m' = length m /\ (forall i, ~ In i g -> nth i m' O = nth i m O) /\ cond P sd g m'.
Lemma cond_ext P sd g m m' : (forall i, In i g -> nth i m O = nth i m' O) -> cond P sd g m -> cond P sd g m'.
Proof.
  intros E (A & B & C). split; [|split].
  - intros i H. destruct (A i H) as [A1 A2]. rewrite <- (E i H). split; auto. rewrite <- E by auto. auto.
  - intros i j Hi Hj H. rewrite <- (E i Hi), <- (E j Hj). auto.
  - intros i j Hi Hj H. rewrite <- (E i Hi), <- (E j Hj) in H. apply C; auto.
Qed.
Lemma cond_single P sd g m : (length g < 2)%nat -> ident g m -> cond P sd g m.
Proof.
  intros Hl Hi. assert (S1 : forall i j, In i g -> In j g -> i = j).
  { destruct g as [|x [|y g]]; simpl in Hl |- *; intros i j; [intros []|intros [<-|[]] [<-|[]]; auto|lia]. }
  split; [|split].
  - intros i H. destruct (Hi i H) as [_ E]. rewrite !E. auto.
  - intros i j Hx Hy _. rewrite (S1 i j); auto.
  - intros i j Hx Hy _ d _. rewrite (S1 i j Hx Hy), Rminus_eq_0, Rabs_R0. split; auto. apply Rmult_le_pos; auto. apply pos_INR.
Qed.
Lemma set_tail h t : forall m, (forall i, In i t -> (i < length m)%nat) ->
  let m' := fold_left (fun m it => set_at m it h) t m in
  length m' = length m /\ forall i, nth i m' O = if in_dec Nat.eq_dec i t then h else nth i m O.
Proof.
  induction t as [|x t IH]; intros m Hl; cbn [fold_left]; [split; auto; intros i; destruct (in_dec Nat.eq_dec i []) as [[]|]; auto|].
  destruct (IH (set_at m x h)) as [L E]. { intros i Hi. rewrite set_at_length. apply Hl; right; auto. }
  rewrite set_at_length in L. split; auto. intros i. rewrite E, set_at_nth.
  assert (B : Nat.ltb x (length m) = true) by (apply Nat.ltb_lt; apply Hl; left; auto). rewrite B.
  destruct (in_dec Nat.eq_dec i t) as [Hi|Hi], (in_dec Nat.eq_dec i (x :: t)) as [Hj|Hj]; auto.
  - exfalso; apply Hj; right; auto.
  - destruct (Nat.eqb_spec x i) as [->|N]; auto. destruct Hj as [Hj|Hj]; [congruence|contradiction].
  - destruct (Nat.eqb_spec x i) as [->|N]; auto. exfalso; apply Hj; left; auto.
Qed.
Lemma post_head P g m : (2 <= length g)%nat -> NoDup g -> ident g m -> Forall P g -> chain (near 0%nat) g ->
  post P O g m (fold_left (fun m it => set_at m it (hd O g)) (tl g) m).
Proof.
  intros Hl Hn Hi HP Hc. destruct g as [|h t]; [simpl in Hl; lia|]. cbn [hd tl].
  destruct (set_tail h t m) as [L E]. { intros i Hin. apply Hi. right; auto. }
  set (m' := fold_left _ t m) in *. inversion Hn as [|? ? Hh Ht]; subst.
  assert (V : forall i, In i (h :: t) -> nth i m' O = h).
  { intros i [<-|Hin]; rewrite E.
    - destruct (in_dec Nat.eq_dec h t); [contradiction|]. apply Hi. left; auto.
    - destruct (in_dec Nat.eq_dec i t); [reflexivity|contradiction]. }
  split; [auto|]. split.
  { intros i Hn'. rewrite E. destruct (in_dec Nat.eq_dec i t) as [K|K]; auto. exfalso; apply Hn'; right; auto. }
  split; [|split].
  - intros i H. rewrite (V i H). split; [left; auto|]. apply V. left; auto.
  - intros i j Hx Hy _. rewrite (V i Hx), (V j Hy). reflexivity.
  - intros i j Hx Hy _ d Hd. assert (d = O) by lia. subst d. split; [apply chain_spread; auto|].
    intros T. apply (chain_trans P 0 (h :: t)); auto.
Qed.
Lemma fold_groups P sd (F : list nat -> list nat -> list nat) groups :
  (forall g m, In g groups -> NoDup g -> ident g m -> post P sd g m (F m g)) ->
  forall m, NoDup (concat groups) -> ident (concat groups) m ->
  let m' := fold_left F groups m in
  length m' = length m /\ (forall i, ~ In i (concat groups) -> nth i m' O = nth i m O) /\ (forall g, In g groups -> cond P sd g m').
Proof.
  intros HF. induction groups as [|g gs IH]; intros m Hn Hid; cbn [fold_left concat] in *.
  - split; [|split]; auto. intros g [].
  - destruct (HF g m) as (L & O & C); [left; auto|eapply NoDup_app_remove_r; eauto|intros i Hi; apply Hid; apply in_or_app; auto|].
    assert (Dis : forall i, In i g -> ~ In i (concat gs)).
    { clear - Hn. induction g as [|x g IHg]; intros i Hi; [destruct Hi|]. inversion Hn; subst. destruct Hi as [<-|Hi]; [intros K; apply H1; apply in_or_app; auto|apply IHg; auto]. }
    destruct (IH) with (m := F m g) as (L' & O' & C').
    + intros; apply HF; auto. right; auto.
    + clear - Hn. induction g; auto. inversion Hn; auto.
    + intros i Hi. destruct (Hid i) as [A B]; [apply in_or_app; auto|]. rewrite L. split; auto. rewrite O; auto. intros K. apply (Dis i K Hi).
    + cbn zeta in *. set (m' := fold_left F gs (F m g)) in *. split; [congruence|split].
      * intros i Hi. rewrite O', O; auto; intros K; apply Hi; apply in_or_app; auto.
      * intros h [<-|Hh]; [|apply C'; auto]. apply (cond_ext P sd g (F m g)); auto. intros i Hi. symmetry. apply O'. apply Dis; auto.
Qed.
Lemma in_concat_group (i : nat) gs : In i (concat gs) -> exists g, In g gs /\ In i g.
Proof. intros H. apply in_concat in H as (g & A & B). eauto. Qed.
(** Indices of different runs of a sorted list are far apart. *)
Lemma runs_apart d gs : StronglySorted (fun i j => c d i <= c d j) (concat gs) -> Forall (fun g => g <> []) gs -> gaps (near d) gs ->
  forall g h, In g gs -> In h gs -> (exists i j, In i g /\ In j h /\ Rabs (c d i - c d j) <= tol) -> g = h \/ (exists k, In k g /\ In k h).
Proof.
  induction gs as [|g0 gs IH]; intros Hs Hne Hg g h Hing Hinh (i & j & Hi & Hj & Hc); [destruct Hing|].
  assert (Far : forall h i j, In h gs -> In i g0 -> In j h -> c d i + tol < c d j).
  { clear g h Hing Hinh i j Hi Hj Hc. intros h i j Hh Hi Hj. destruct gs as [|h0 gs]; [destruct Hh|].
    destruct Hg as [Hgap Hg]. inversion Hne as [|? ? N0 Hne']; subst. inversion Hne' as [|? ? N1 _]; subst.
    specialize (Hgap O). destruct Hgap as [Hgap|[?|?]]; try contradiction.
    assert (A : c d i <= c d (last g0 O)).
    { destruct (exists_last N0) as (g' & z & ->). rewrite last_last. clear - Hi Hs. apply in_app_or in Hi as [Hi|[<-|[]]]; [|lra].
      cbn [concat] in Hs. rewrite <- app_assoc in Hs. induction g' as [|y g' IHg]; [destruct Hi|]. cbn [app] in Hs. inversion Hs as [|? ? Hs' Hf]; subst.
      destruct Hi as [<-|Hi]; [|apply IHg; auto]. rewrite Forall_forall in Hf. apply Hf. apply in_or_app. right. left; auto. }
    assert (B : c d (hd O h0) <= c d j).
    { destruct h0 as [|z h0]; [contradiction|]. cbn [hd]. cbn [concat] in Hs. 
      assert (Hs' : StronglySorted (fun i j => c d i <= c d j) ((z :: h0) ++ concat gs)). { clear - Hs. induction g0; auto. inversion Hs; auto. }
      cbn [app] in Hs'. inversion Hs' as [|? ? _ Hf]; subst. rewrite Forall_forall in Hf.
      destruct Hh as [<-|Hh]; [destruct Hj as [<-|Hj]; [lra|apply Hf; apply in_or_app; auto]|]. apply Hf. apply in_or_app. right. apply in_concat. eauto. }
    assert (C : c d (last g0 O) <= c d (hd O h0)).
    { destruct (exists_last N0) as (g' & z & ->). rewrite last_last in *. destruct h0 as [|y h0]; [contradiction|]. cbn [hd] in *. cbn [concat] in Hs. rewrite <- app_assoc in Hs. cbn [app] in Hs.
      clear - Hs. induction g' as [|w g' IHg]; cbn [app] in Hs; inversion Hs as [|? ? Hs' Hf]; subst; auto. inversion Hf; auto. }
    assert (D : ~ Rabs (c d (last g0 O) - c d (hd O h0)) <= tol). { intros K. apply (near_spec d) in K. congruence. }
    rewrite Rabs_left1 in D by lra. lra. }
  destruct Hing as [<-|Hing], Hinh as [<-|Hinh].
  - left; auto.
  - specialize (Far h i j Hinh Hi Hj). rewrite Rabs_left1 in Hc by lra. lra.
  - specialize (Far g j i Hing Hj Hi). rewrite Rabs_pos_eq in Hc by lra. lra.
  - apply IH; eauto.
    + clear - Hs. cbn [concat] in Hs. induction g0; auto. inversion Hs; auto.
    + inversion Hne; auto.
    + destruct gs; [destruct Hing|destruct Hg; auto].
Qed.
Lemma NoDup_group (gs : list (list nat)) : NoDup (concat gs) -> forall g, In g gs -> NoDup g.
Proof.
  induction gs as [|h gs IH]; intros Hn g Hg; [destruct Hg|]. cbn [concat] in Hn. destruct Hg as [<-|Hg]; [eapply NoDup_app_remove_r; eauto|].
  apply IH; auto. eapply NoDup_app_remove_l; eauto.
Qed.
Lemma NoDup_same_group (gs : list (list nat)) : NoDup (concat gs) -> forall g h k, In g gs -> In h gs -> In k g -> In k h -> g = h.
Proof.
  induction gs as [|a gs IH]; intros Hn g h k Hg Hh Hkg Hkh; [destruct Hg|]. cbn [concat] in Hn.
  assert (Dis : forall i, In i a -> ~ In i (concat gs)).
  { clear - Hn. induction a as [|x a IHg]; intros i Hi; [destruct Hi|]. inversion Hn; subst. destruct Hi as [<-|Hi]; [intros K; apply H1; apply in_or_app; auto|apply IHg; auto]. }
  destruct Hg as [<-|Hg], Hh as [<-|Hh]; auto.
  - exfalso. apply (Dis k Hkg). apply in_concat. eauto.
  - exfalso. apply (Dis k Hkh). apply in_concat. eauto.
  - eapply IH; eauto. eapply NoDup_app_remove_l; eauto.
Qed.
Variable sort : nat -> list nat -> list nat.
Hypothesis sort_ok : sorting_routine points sort.
Lemma group_len (gs : list (list nat)) : forall g, In g gs -> (length g <= length (concat gs))%nat.
Proof. induction gs as [|h gs IH]; intros g Hg; [destruct Hg|]. cbn [concat]. rewrite app_length. destruct Hg as [<-|Hg]; [lia|]. specialize (IH g Hg). lia. Qed.

Lemma find_rec_post P sd : forall indices m, NoDup indices -> Forall P indices -> ident indices m ->
  post P sd indices m (find_coincident_rec sort points tol sd indices m).
Proof.
  induction sd as [sd IHsd] using lt_wf_ind. intros indices m Hn HP Hid.
  assert (Unf : find_coincident_rec sort points tol sd indices m =
    if Nat.ltb (length indices) 2 then m
    else fold_left (fun points_map group => if Nat.ltb (length group) 2 then points_map
         else match sd with O => fold_left (fun m it => set_at m it (hd O group)) (tl group) points_map
              | S sub => find_coincident_rec sort points tol sub group points_map end)
         (runs (fun i j => tol_equal tol (coord points sd i) (coord points sd j)) (sort sd indices)) m) by (destruct sd; reflexivity).
  rewrite Unf. clear Unf. destruct (Nat.ltb_spec (length indices) 2) as [Hl|Hl].
  { split; auto. split; auto. apply cond_single; auto. }
  destruct (sort_ok sd indices) as [Hp Hs]. set (l := sort sd indices) in *. set (gs := runs _ l).
  assert (Ec : concat gs = l) by apply runs_concat.
  assert (Hnl : NoDup (concat gs)) by (rewrite Ec; eapply Permutation_NoDup; [symmetry; exact Hp|auto]).
  assert (Inl : forall i, In i (concat gs) <-> In i indices) by (intros i; rewrite Ec; split; apply Permutation_in; auto; symmetry; auto).
  pose proof (runs_chain (near sd) l) as Hch. fold gs in Hch. rewrite Forall_forall in Hch.
  destruct (fold_groups P sd (fun points_map group => if Nat.ltb (length group) 2 then points_map
         else match sd with O => fold_left (fun m it => set_at m it (hd O group)) (tl group) points_map
              | S sub => find_coincident_rec sort points tol sub group points_map end) gs) with (m := m) as (L & O & C).
  { intros g m0 Hg Hng Hidg. destruct (Nat.ltb_spec (length g) 2) as [Hlg|Hlg].
    - split; auto. split; auto. apply cond_single; auto.
    - assert (HPg : Forall P g). { apply Forall_forall. intros x Hx. rewrite Forall_forall in HP. apply HP. apply Inl. apply in_concat. eauto. }
      destruct sd as [|sub].
      + apply post_head; auto.
      + destruct (IHsd sub ltac:(lia) g m0 Hng HPg Hidg) as (L & O & (C1 & C2 & C3)). split; auto. split; auto. split; [auto|]. split.
        * intros i j Hi Hj H. apply C2; auto.
        * intros i j Hi Hj H d Hd. destruct (Nat.eq_dec d (S sub)) as [->|N].
          -- split; [apply chain_spread; auto|]. intros T. apply (chain_trans P (S sub) g); auto.
          -- apply C3; auto. lia. }
  { exact Hnl. }
  { intros i Hi. apply Hid. apply Inl. auto. }
  cbv zeta in L, O, C. set (m' := fold_left _ gs m) in *.
  assert (Grp : forall i, In i indices -> exists g, In g gs /\ In i g) by (intros i Hi; apply in_concat_group; apply Inl; auto).
  split; auto. split.
  { intros i Hi. apply O. intros K. apply Hi. apply Inl; auto. }
  assert (Bound : forall i j g, In g gs -> In i g -> In j g -> nth i m' 0%nat = nth j m' 0%nat -> forall d, (d <= sd)%nat ->
     Rabs (c d i - c d j) <= INR (length indices - 1) * tol /\ (trans_on P -> Rabs (c d i - c d j) <= tol)).
  { intros i j g Hg Hi Hj E d Hd. destruct (C g Hg) as (_ & _ & C3). destruct (C3 i j Hi Hj E d Hd) as [B T]. split; auto.
    apply Rle_trans with (1 := B). apply Rmult_le_compat_r; auto. apply le_INR. pose proof (group_len gs g Hg). rewrite Ec in H. rewrite (Permutation_length Hp) in H. lia. }
  split; [|split].
  - intros i Hi. destruct (Grp i Hi) as (g & Hg & Hig). destruct (C g Hg) as (C1 & _ & _). destruct (C1 i Hig) as [A B]. split; auto. apply Inl. apply in_concat. eauto.
  - intros i j Hi Hj H. destruct (Grp i Hi) as (g & Hg & Hig). destruct (Grp j Hj) as (h & Hh & Hjh).
    assert (E : g = h).
    { destruct (runs_apart sd gs) with (g := g) (h := h) as [E|(k & Ka & Kb)]; auto.
      - rewrite Ec. exact Hs. - apply runs_ne. - apply runs_gaps. - exists i, j. repeat split; auto.
      - eapply NoDup_same_group; eauto. }
    subst h. destruct (C g Hg) as (_ & C2 & _). apply C2; auto.
  - intros i j Hi Hj E d Hd. destruct (Grp i Hi) as (g & Hg & Hig). destruct (Grp j Hj) as (h & Hh & Hjh).
    assert (Eg : g = h).
    { destruct (C g Hg) as (C1 & _ & _). destruct (C h Hh) as (C1' & _ & _). destruct (C1 i Hig) as [A _]. destruct (C1' j Hjh) as [A' _]. rewrite E in A.
      eapply NoDup_same_group; eauto. }
    subst h. apply (Bound i j g); auto.
Qed.
End Spec.

(** ** Renumbering *)
Definition reps_at (otu : list nat) (i : nat) : list nat := filter (fun j => Nat.eqb (nth (j - i) otu O) j) (seq i (length otu)).
Lemma reps_shift u otu i : filter (fun j => Nat.eqb (nth (j - i) (u :: otu) O) j) (seq (S i) (length otu)) = reps_at otu (S i).
Proof.
  unfold reps_at. apply filter_ext_in. intros j Hj. apply in_seq in Hj. replace (j - i)%nat with (S (j - S i)) by lia. reflexivity.
Qed.
Lemma reps_cons u otu i : reps_at (u :: otu) i = if Nat.eqb u i then i :: reps_at otu (S i) else reps_at otu (S i).
Proof.
  unfold reps_at at 1. cbn [length seq filter]. rewrite reps_shift, Nat.sub_diag. cbn [nth]. reflexivity.
Qed.
Lemma reps_ge otu i j : In j (reps_at otu i) -> (i <= j < i + length otu)%nat.
Proof. unfold reps_at. intros H. apply filter_In in H as [H _]. apply in_seq in H. lia. Qed.
Lemma number_reps_spec : forall otu points otn i k, length points = length otu -> length otn = length otu ->
  let r := number_reps otu points otn i k in
  length (fst r) = length otu /\ snd r = map (fun j => nth (j - i) points []) (reps_at otu i) /\
  forall t, (t < length (reps_at otu i))%nat -> nth (nth t (reps_at otu i) O - i) (fst r) O = (k + t)%nat.
Proof.
  induction otu as [|u otu IH]; intros [|p points] [|o otn] i k Hp Ho; try discriminate.
  { cbn. repeat split. intros; lia. }
  cbv zeta. cbn [number_reps]. rewrite reps_cons. injection Hp as Hp. injection Ho as Ho.
  assert (Sh : map (fun j => nth (j - i) (p :: points) []) (reps_at otu (S i)) = map (fun j => nth (j - S i) points []) (reps_at otu (S i))).
  { apply map_ext_in. intros j Hj. apply reps_ge in Hj. replace (j - i)%nat with (S (j - S i)) by lia. reflexivity. }
  assert (Sn : forall (x : nat) l t, (t < length (reps_at otu (S i)))%nat -> nth (nth t (reps_at otu (S i)) O - i) (x :: l) O = nth (nth t (reps_at otu (S i)) O - S i) l O).
  { intros x l t Ht. pose proof (reps_ge otu (S i) (nth t (reps_at otu (S i)) O) (nth_In _ _ Ht)).
    replace (nth t (reps_at otu (S i)) O - i)%nat with (S (nth t (reps_at otu (S i)) O - S i)) by lia. reflexivity. }
  destruct (Nat.eqb u i).
  - destruct (IH points otn (S i) (S k) Hp Ho) as (A & B & C). cbn [fst snd length map]. rewrite A, B, Sh, Nat.sub_diag.
    split; [reflexivity|]. split; [reflexivity|]. intros [|t] Ht.
    + change (nth 0 (i :: reps_at otu (S i)) O) with i. rewrite Nat.sub_diag. cbn. lia.
    + change (nth (S t) (i :: reps_at otu (S i)) O) with (nth t (reps_at otu (S i)) O). rewrite Sn by (cbn in Ht; lia). rewrite C by (cbn in Ht; lia). lia.
  - destruct (IH points otn (S i) k Hp Ho) as (A & B & C). cbn [fst snd length]. rewrite A, B, Sh.
    split; [reflexivity|]. split; [reflexivity|]. intros t Ht. rewrite Sn by auto. apply C. auto.
Qed.
Lemma renumber_spec otu (otn : list nat) : (forall i, (i < length otu)%nat -> (nth i otu O < length otn)%nat /\ nth (nth i otu O) otu O = nth i otu O) ->
  length otn = length otu ->
  forall i, (i < length otu)%nat -> nth i (renumber otu 0 otn) O = nth (nth i otu O) otn O.
Proof.
  intros Hi Hl.
  assert (G : forall post pre cur, otu = pre ++ post -> length cur = length otn ->
    (forall j, (j < length otu)%nat -> nth j cur O = if Nat.ltb j (length pre) then nth (nth j otu O) otn O else nth j otn O) ->
    length (renumber post (length pre) cur) = length otn /\
    forall j, (j < length otu)%nat -> nth j (renumber post (length pre) cur) O = nth (nth j otu O) otn O).
  { induction post0 as [|u post0 IH]; intros pre cur E Lc Hc; cbn [renumber].
    - split; auto. intros j Hj. rewrite Hc by auto. destruct (Nat.ltb_spec j (length pre)); auto. rewrite E, app_nil_r in Hj. lia.
    - specialize (IH (pre ++ [u]) (set_at cur (length pre) (nth u cur O))).
      rewrite app_length in IH. cbn [length] in IH. replace (S (length pre)) with (length pre + 1)%nat by lia. apply IH.
      + rewrite <- app_assoc. exact E.
      + rewrite set_at_length. auto.
      + intros j Hj. rewrite set_at_nth.
        assert (Lp : (length pre < length otu)%nat) by (rewrite E, app_length; cbn; lia).
        assert (Hu : nth (length pre) otu O = u) by (rewrite E, app_nth2, Nat.sub_diag by lia; reflexivity).
        destruct (Nat.eqb_spec (length pre) j) as [<-|N].
        * replace (Nat.ltb (length pre) (length cur)) with true by (symmetry; apply Nat.ltb_lt; lia).
          replace (Nat.ltb (length pre) (length pre + 1)) with true by (symmetry; apply Nat.ltb_lt; lia).
          rewrite Hu. destruct (Hi _ Lp) as [U1 U2]. rewrite Hu in U1, U2. rewrite Hc by lia. destruct (Nat.ltb u (length pre)); auto. rewrite U2. reflexivity.
        * rewrite Hc by auto. destruct (Nat.ltb_spec j (length pre)), (Nat.ltb_spec j (length pre + 1)); auto; lia. }
  intros i Hlt. destruct (G otu [] otn) as [_ R]; auto.
Qed.
Lemma renumber_length otu : forall i otn, length (renumber otu i otn) = length otn.
Proof. induction otu as [|u otu IH]; intros; cbn [renumber]; auto. rewrite IH, set_at_length. auto. Qed.
Lemma filter_SS (f : nat -> bool) l : StronglySorted lt l -> StronglySorted lt (filter f l).
Proof.
  induction 1 as [|x l Hs IH Hf]; cbn; [constructor|]. destruct (f x); auto. constructor; auto.
  apply Forall_forall. intros y Hy. apply filter_In in Hy as [Hy _]. rewrite Forall_forall in Hf. auto.
Qed.
Lemma seq_SS n : forall i, StronglySorted lt (seq i n).
Proof. induction n as [|n IH]; intros i; cbn; constructor; auto. apply Forall_forall. intros j Hj. apply in_seq in Hj. lia. Qed.

(** ** The whole function *)
Lemma find_coincident_spec sort dim points tol : 0 <= tol -> (0 < dim)%nat -> sorting_routine points sort ->
  let m := find_coincident sort dim points tol in
  length m = length points /\
  (forall i, (i < length points)%nat -> (nth i m O < length points)%nat /\ nth (nth i m O) m O = nth i m O) /\
  (forall i j, (i < length points)%nat -> (j < length points)%nat -> coincident dim points tol i j -> nth i m O = nth j m O) /\
  (forall i j, (i < length points)%nat -> (j < length points)%nat -> nth i m O = nth j m O -> forall d, (d < dim)%nat ->
    Rabs (pt_coord points i d - pt_coord points j d) <= INR (length points - 1) * tol /\
    (trans_on points tol (fun i => (i < length points)%nat) -> Rabs (pt_coord points i d - pt_coord points j d) <= tol)).
Proof.
  intros Ht Hd Hs. set (n := length points).
  assert (P : post points tol (fun i => (i < n)%nat) (dim - 1) (seq 0 n) (seq 0 n) (find_coincident sort dim points tol)).
  { assert (Id : ident (seq 0 n) (seq 0 n)). { intros i Hi. apply in_seq in Hi. rewrite seq_length, seq_nth by lia. lia. }
    unfold find_coincident. fold n. destruct (Nat.ltb_spec 1 n) as [H|H].
    - apply find_rec_post; auto; [apply seq_NoDup|]. apply Forall_forall. intros i Hi. apply in_seq in Hi. lia.
    - split; auto. split; auto. apply cond_single; auto. rewrite seq_length. lia. }
  destruct P as (L & _ & (A & B & C)). rewrite seq_length in L, C. cbv zeta. set (m := find_coincident sort dim points tol) in *.
  assert (I : forall i, (i < n)%nat -> In i (seq 0 n)) by (intros i Hi; apply in_seq; lia).
  split; auto. split; [|split].
  - intros i Hi. destruct (A i (I i Hi)) as [A1 A2]. apply in_seq in A1. split; auto. lia.
  - intros i j Hi Hj H. apply B; auto. intros d Hd'. apply H. lia.
  - intros i j Hi Hj E d Hd'. apply C; auto. lia.
Qed.
Theorem make_unique_spec sort dim points tol old : 0 <= tol -> (0 < dim)%nat -> sorting_routine points sort ->
  exists reps, increasing reps /\ (forall r, In r reps -> (r < length points)%nat) /\
    fst (make_points_unique sort dim points tol old) = map (fun r => nth r points []) reps /\
    length (snd (make_points_unique sort dim points tol old)) = length points /\
    (forall k, (k < length reps)%nat -> nth (nth k reps O) (snd (make_points_unique sort dim points tol old)) O = k) /\
    (forall i, (i < length points)%nat -> (nth i (snd (make_points_unique sort dim points tol old)) O < length reps)%nat) /\
    (forall i j, (i < length points)%nat -> (j < length points)%nat -> coincident dim points tol i j ->
       nth i (snd (make_points_unique sort dim points tol old)) O = nth j (snd (make_points_unique sort dim points tol old)) O) /\
    (forall i j, (i < length points)%nat -> (j < length points)%nat ->
       nth i (snd (make_points_unique sort dim points tol old)) O = nth j (snd (make_points_unique sort dim points tol old)) O ->
       forall d, (d < dim)%nat -> Rabs (pt_coord points i d - pt_coord points j d) <= INR (length points - 1) * tol /\
       (trans_on points tol (fun i => (i < length points)%nat) -> Rabs (pt_coord points i d - pt_coord points j d) <= tol)).
Proof.
  intros Ht Hd Hs. destruct (find_coincident_spec sort dim points tol Ht Hd Hs) as (L & A & B & C). cbv zeta in *.
  unfold make_points_unique. set (m := find_coincident sort dim points tol) in *. cbn [fst snd].
  set (rz := firstn (length points) old ++ repeat O (length points - length old)).
  assert (Lr : length rz = length m). { unfold rz. rewrite app_length, firstn_length, repeat_length, L. lia. }
  destruct (number_reps_spec m points rz 0 0 (eq_sym L) Lr) as (N1 & N2 & N3). cbv zeta in N1, N2, N3. set (r := number_reps m points rz 0 0) in *.
  set (reps := reps_at m 0) in *.
  assert (R : forall i, (i < length points)%nat -> nth i (renumber m 0 (fst r)) O = nth (nth i m O) (fst r) O).
  { intros i Hi. apply renumber_spec; rewrite ?N1, ?L; auto. }
  assert (Rin : forall x, In x reps <-> (x < length points)%nat /\ nth x m O = x).
  { intros x. unfold reps, reps_at. rewrite filter_In, in_seq, L, Nat.sub_0_r, Nat.eqb_eq. intuition lia. }
  assert (Idx : forall i, (i < length points)%nat -> exists k, (k < length reps)%nat /\ nth k reps O = nth i m O /\ nth i (renumber m 0 (fst r)) O = k).
  { intros i Hi. destruct (A i Hi) as [A1 A2]. assert (Hin : In (nth i m O) reps) by (apply Rin; auto).
    destruct (In_nth _ _ O Hin) as (k & Hk & E). exists k. split; auto. split; auto. rewrite R by auto. rewrite <- E. rewrite <- (Nat.sub_0_r (nth k reps O)). rewrite N3; auto. }
  exists reps. split; [apply filter_SS, seq_SS|]. split; [intros x Hx; apply Rin in Hx; tauto|]. split.
  { rewrite N2. apply map_ext. intros j. rewrite Nat.sub_0_r. reflexivity. }
  split; [rewrite renumber_length; congruence|]. split; [|split; [|split]].
  - intros k Hk. assert (Hin : In (nth k reps O) reps) by (apply nth_In; auto). apply Rin in Hin as [H1 H2].
    rewrite R, H2 by auto. rewrite <- (Nat.sub_0_r (nth k reps O)). rewrite N3; auto.
  - intros i Hi. destruct (Idx i Hi) as (k & Hk & _ & ->). auto.
  - intros i j Hi Hj H. rewrite !R by auto. f_equal. apply B; auto.
  - intros i j Hi Hj E. apply C; auto. destruct (Idx i Hi) as (k & Hk & E1 & E2). destruct (Idx j Hj) as (k' & Hk' & E1' & E2'). congruence.
Qed.

(** ** A sorting routine exists *)
Fixpoint ins (points : list (list R)) (d x : nat) (l : list nat) : list nat :=
  match l with [] => [x] | y :: l' => if Rle_dec (pt_coord points x d) (pt_coord points y d) then x :: y :: l' else y :: ins points d x l' end.
Fixpoint isort (points : list (list R)) (d : nat) (l : list nat) : list nat :=
  match l with [] => [] | x :: l' => ins points d x (isort points d l') end.
Lemma ins_perm points d x l : Permutation (ins points d x l) (x :: l).
Proof. induction l as [|y l IH]; cbn; auto. destruct (Rle_dec _ _); auto. rewrite IH. constructor. Qed.
Lemma ins_sorted points d x l : StronglySorted (fun i j => pt_coord points i d <= pt_coord points j d) l ->
  StronglySorted (fun i j => pt_coord points i d <= pt_coord points j d) (ins points d x l).
Proof.
  induction 1 as [|y l Hs IH Hf]; cbn; [repeat constructor|]. destruct (Rle_dec (pt_coord points x d) (pt_coord points y d)) as [H|H].
  - constructor; [constructor; auto|]. constructor; auto. eapply Forall_impl; [|exact Hf]. cbv beta. intros; lra.
  - constructor; auto. apply Forall_forall. intros z Hz. apply (Permutation_in _ (ins_perm points d x l)) in Hz. destruct Hz as [<-|Hz]; [lra|]. rewrite Forall_forall in Hf. auto.
Qed.
Lemma isort_ok points : sorting_routine points (isort points).
Proof.
  intros d l. induction l as [|x l [IH1 IH2]]; cbn; [split; constructor|]. split; [rewrite ins_perm; constructor; auto|apply ins_sorted; auto].
Qed.
Lemma C43_witness : exists dim points tol, (0 < dim)%nat /\ 0 <= tol /\ (exists sort, sorting_routine points sort) /\
  forall sort old, sorting_routine points sort ->
  exists i j, (i < length points)%nat /\ (j < length points)%nat /\ ~ coincident dim points tol i j /\
    nth i (snd (make_points_unique sort dim points tol old)) O = nth j (snd (make_points_unique sort dim points tol old)) O.
Proof.
  exists 1%nat, [[0]; [6/10]; [12/10]], 1. split; [lia|]. split; [lra|]. split; [eexists; apply isort_ok|].
  intros sort old Hs. destruct (make_unique_spec sort 1 [[0]; [6/10]; [12/10]] 1 old ltac:(lra) ltac:(lia) Hs) as (reps & _ & _ & _ & _ & _ & _ & H & _).
  exists 0%nat, 2%nat. split; [cbn; lia|]. split; [cbn; lia|]. split.
  - intros K. specialize (K 0%nat ltac:(lia)). unfold pt_coord in K. cbn [nth] in K. rewrite Rabs_left in K by lra. lra.
  - transitivity (nth 1 (snd (make_points_unique sort 1 [[0]; [6/10]; [12/10]] 1 old)) O); apply H; cbn [length]; try lia;
      intros d Hd; replace d with O by lia; unfold pt_coord; cbn [nth]; rewrite Rabs_left; lra.
Qed.
