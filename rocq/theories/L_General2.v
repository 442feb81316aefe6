(** Lemmas for the general reparameterization: reference intervals and the points of the cells. *)
From Coq Require Import Reals List Lia Lra Permutation Arith ZArith.
From Verif Require Import M_General S_General S_Mesh S_Roots L_Real L_BBox L_Point L_Mesh L_Roots L_General.
Import ListNotations.
Local Close Scope Z_scope. Local Close Scope nat_scope. Local Open Scope R_scope.

Lemma tid_eqb_spec a b : reflect (a = b) (tid_eqb a b).
Proof. unfold tid_eqb. destruct (list_eq_dec Nat.eq_dec a b); constructor; assumption. Qed.
Lemma find_emplace {A} (m : list (list nat * A)) t a u : find_tid (emplace m t a) u = match find_tid m u with Some x => Some x | None => if tid_eqb t u then Some a else None end.
Proof.
  unfold emplace. destruct (find_tid m t) eqn:E.
  - destruct (find_tid m u) eqn:Eu; [reflexivity|]. destruct (tid_eqb_spec t u) as [->|]; [congruence|reflexivity].
  - cbn [find_tid]. destruct (tid_eqb_spec t u) as [->|]; [rewrite E; reflexivity|]. destruct (find_tid m u); reflexivity.
Qed.
Lemma foldM_inv {A B} (f : A -> B -> outcome A) (I : A -> Prop) : forall l a, I a -> (forall a x, In x l -> I a -> exists a', f a x = Ret a' /\ I a') -> exists a', foldM f l a = Ret a' /\ I a'.
Proof.
  induction l as [|x l IH]; intros a Ha H; [exists a; split; [reflexivity|exact Ha]|]. destruct (H a x) as (a' & E & Ha'); [left; reflexivity|exact Ha|]. cbn [foldM]. rewrite E. cbn [bind].
  apply IH; [exact Ha'|]. intros; apply H; [right; assumption|assumption].
Qed.

Section Refs.
Variables (O : oracles) (range : nat).
Hypothesis HO : sound O range.

Definition hasref (refs : list refmap) (t : list nat) : Prop := match refs with [] => True | r :: _ => find_tid r t <> None end.
Fixpoint closed (lvs : list obj) (refs : list refmap) : Prop :=
  match lvs, refs with
  | [], [] => True
  | l :: up, r :: rup => (forall t iv, find_tid r t = Some iv -> good_iv l iv /\ forall i, nth_error (iv_active iv) i = Some true -> hasref rup (set_at t (l_dir l) i)) /\ closed up rup
  | _, _ => False
  end.
(** Entries are never changed. *)
Definition rext (a b : list refmap) : Prop := Forall2 (fun r r' => forall t iv, find_tid r t = Some iv -> find_tid r' t = Some iv) a b.
Lemma rext_refl a : rext a a.
Proof. induction a; constructor; auto. Qed.
Lemma rext_trans a b c : rext a b -> rext b c -> rext a c.
Proof. intros H. revert c. induction H as [|x y a b H _ IH]; intros c G; inversion G; subst; constructor; [intros t iv Ht; auto|apply IH; assumption]. Qed.
Lemma rext_has a b t : rext a b -> hasref a t -> hasref b t.
Proof. intros H. destruct H as [|x y a b H _]; [auto|]. cbn. intros Hx. destruct (find_tid x t) eqn:E; [rewrite (H _ _ E); discriminate|congruence]. Qed.
Lemma closed_len : forall lvs refs, closed lvs refs -> length lvs = length refs.
Proof. induction lvs as [|l up IH]; intros [|r rup] H; cbn in *; try tauto. f_equal. apply IH, H. Qed.
Lemma closed_clear : forall lvs refs, length lvs = length refs -> closed lvs (clear_refs refs).
Proof. induction lvs as [|l up IH]; intros [|r rup] H; cbn in *; try discriminate; [exact I|]. split; [intros; discriminate|]. apply IH. lia. Qed.

Lemma compute_ref_ok : forall lvs refs pt tid, Forall (wf_obj range) lvs -> Forall (fun l => l_dim l <> 1%nat) lvs -> closed lvs refs -> length pt = range ->
  exists refs', compute_ref_intervals O lvs refs pt tid = Ret refs' /\ closed lvs refs' /\ hasref refs' tid /\ rext refs refs'.
Proof.
  induction lvs as [|l up IH]; intros refs pt tid W D C Hp; destruct refs as [|r rup]; cbn [closed] in C; [exists []; cbn; split; [reflexivity|split; [exact I|split; [exact I|constructor]]]|destruct C|destruct C|].
  inversion W as [|? ? Wl Wu]; subst. inversion D as [|? ? Dl Du]; subst. destruct C as [Cr Cu]. cbn [compute_ref_intervals]. destruct (Nat.eqb_spec (l_dim l) 1) as [Ed|Ed]; [contradiction|].
  destruct (all_ok O _ HO l pt Wl ltac:(reflexivity)) as (iv & E & G). rewrite E. cbn [bind].
  assert (K : exists rup1, foldM (fun rs i => a <- M_Mesh.at_ (iv_active iv) i ;; if a : bool then x0 <- M_Mesh.at_ (ri_roots (iv_ri iv)) i ;; x1 <- M_Mesh.at_ (ri_roots (iv_ri iv)) (S i) ;;
        compute_ref_intervals O up rs (set_at pt (l_dir l) (/ 2 * (x0 + x1))) (set_at tid (l_dir l) i) else Ret rs) (seq 0 (length (iv_active iv))) rup = Ret rup1
      /\ closed up rup1 /\ rext rup rup1 /\ forall i, nth_error (iv_active iv) i = Some true -> hasref rup1 (set_at tid (l_dir l) i)).
  { assert (Hlen : forall i, (i < length (iv_active iv))%nat -> (S i < length (ri_roots (iv_ri iv)))%nat) by (intros i Hi; destruct G as [_ G]; rewrite G in Hi; destruct (l_S l); lia).
    assert (A : forall n a rs, (a + n <= length (iv_active iv))%nat -> closed up rs -> exists rup1, foldM (fun rs i => a <- M_Mesh.at_ (iv_active iv) i ;; if a : bool then x0 <- M_Mesh.at_ (ri_roots (iv_ri iv)) i ;; x1 <- M_Mesh.at_ (ri_roots (iv_ri iv)) (S i) ;;
        compute_ref_intervals O up rs (set_at pt (l_dir l) (/ 2 * (x0 + x1))) (set_at tid (l_dir l) i) else Ret rs) (seq a n) rs = Ret rup1
      /\ closed up rup1 /\ rext rs rup1 /\ forall i, (a <= i < a + n)%nat -> nth_error (iv_active iv) i = Some true -> hasref rup1 (set_at tid (l_dir l) i)).
    { induction n as [|n IHn]; intros a rs Ha Crs; cbn [seq foldM]; [exists rs; split; [reflexivity|split; [exact Crs|split; [apply rext_refl|intros; lia]]]|].
      rewrite (L_Mesh.at_ok (iv_active iv) a false) by lia. cbn [bind]. destruct (nth a (iv_active iv) false) eqn:Ea.
      - rewrite (L_Mesh.at_ok _ a 0) by (specialize (Hlen a); lia). cbn [bind]. rewrite (L_Mesh.at_ok _ (S a) 0) by (specialize (Hlen a); lia). cbn [bind].
        match goal with |- context [compute_ref_intervals O up rs ?p ?t] => destruct (IH rs p t Wu Du Crs) as (rs1 & E1 & C1 & H1 & X1); [rewrite set_at_length; reflexivity|] end. rewrite E1. cbn [bind].
        destruct (IHn (S a) rs1 ltac:(lia) C1) as (rup1 & E2 & C2 & X2 & H2). exists rup1. split; [exact E2|]. split; [exact C2|]. split; [eapply rext_trans; eassumption|].
        intros i Hi Hn. destruct (Nat.eq_dec i a) as [->|]; [eapply rext_has; eassumption|apply H2; [lia|exact Hn]].
      - cbn [bind]. destruct (IHn (S a) rs ltac:(lia) Crs) as (rup1 & E2 & C2 & X2 & H2). exists rup1. split; [exact E2|]. split; [exact C2|]. split; [exact X2|].
        intros i Hi Hn. destruct (Nat.eq_dec i a) as [->|]; [apply nth_error_nth with (d := false) in Hn; congruence|apply H2; [lia|exact Hn]]. }
    destruct (A (length (iv_active iv)) 0%nat rup ltac:(lia) Cu) as (rup1 & E1 & C1 & X1 & H1). exists rup1. split; [exact E1|]. split; [exact C1|]. split; [exact X1|]. intros i Hi. apply H1; [|exact Hi].
    assert (nth_error (iv_active iv) i <> None) by congruence. apply nth_error_Some in H. lia. }
  destruct K as (rup1 & E1 & C1 & X1 & H1). rewrite E1. cbn [bind]. eexists. split; [reflexivity|]. split; [|split].
  - cbn [closed]. split; [|exact C1]. intros t iv' F. rewrite find_emplace in F. destruct (find_tid r t) as [iv0|] eqn:Et.
    + injection F as <-. destruct (Cr t iv0 Et) as [Cg Ch]. split; [exact Cg|]. intros i Hi. eapply rext_has; [exact X1|]. apply Ch. exact Hi.
    + destruct (tid_eqb_spec tid t) as [<-|]; [|discriminate]. injection F as <-. split; [exact G|exact H1].
  - cbn [hasref]. rewrite find_emplace. destruct (find_tid r tid); [discriminate|]. destruct (tid_eqb_spec tid tid); [discriminate|contradiction].
  - constructor; [|exact X1]. intros t iv' F. rewrite find_emplace, F. reflexivity.
Qed.
(** The lowest object, of dimension one, clears the intervals of the others. *)
Lemma compute_ref_base l up refs pt tid : wf_obj range l -> l_dim l = 1%nat -> Forall (wf_obj range) up -> Forall (fun l => l_dim l <> 1%nat) up -> length up = length refs -> length pt = range ->
  exists refs', compute_ref_intervals O (l :: up) ([] :: refs) pt tid = Ret refs' /\ closed (l :: up) refs' /\ hasref refs' tid.
Proof.
  intros Wl Dl Wu Du Hlen Hp. set (l2 := mk_obj 2 (l_S l) (l_free l) (l_psi l) (l_count l) (l_box l) (l_dir l)).
  cbn [compute_ref_intervals]. rewrite Dl. cbn [Nat.eqb].
  pose proof (closed_clear up refs Hlen) as Cu. set (rup := clear_refs refs) in *. clearbody rup. clear refs Hlen.
  destruct (all_ok O _ HO l pt Wl ltac:(assumption)) as (iv & E & G). rewrite E. cbn [bind].
  assert (Hlen : forall i, (i < length (iv_active iv))%nat -> (S i < length (ri_roots (iv_ri iv)))%nat) by (intros i Hi; destruct G as [_ G]; rewrite G in Hi; destruct (l_S l); lia).
  assert (A : forall n a rs, (a + n <= length (iv_active iv))%nat -> closed up rs -> exists rup1, foldM (fun rs i => a <- M_Mesh.at_ (iv_active iv) i ;; if a : bool then x0 <- M_Mesh.at_ (ri_roots (iv_ri iv)) i ;; x1 <- M_Mesh.at_ (ri_roots (iv_ri iv)) (S i) ;;
        compute_ref_intervals O up rs (set_at pt (l_dir l) (/ 2 * (x0 + x1))) (set_at tid (l_dir l) i) else Ret rs) (seq a n) rs = Ret rup1
      /\ closed up rup1 /\ rext rs rup1 /\ forall i, (a <= i < a + n)%nat -> nth_error (iv_active iv) i = Some true -> hasref rup1 (set_at tid (l_dir l) i)).
  { induction n as [|n IHn]; intros a rs Ha Crs; cbn [seq foldM]; [exists rs; split; [reflexivity|split; [exact Crs|split; [apply rext_refl|intros; lia]]]|].
    rewrite (L_Mesh.at_ok (iv_active iv) a false) by lia. cbn [bind]. destruct (nth a (iv_active iv) false) eqn:Ea.
    - rewrite (L_Mesh.at_ok _ a 0) by (specialize (Hlen a); lia). cbn [bind]. rewrite (L_Mesh.at_ok _ (S a) 0) by (specialize (Hlen a); lia). cbn [bind].
      match goal with |- context [compute_ref_intervals O up rs ?p ?t] => destruct (compute_ref_ok up rs p t Wu Du Crs) as (rs1 & E1 & C1 & H1 & X1); [rewrite set_at_length; assumption|] end. rewrite E1. cbn [bind].
      destruct (IHn (S a) rs1 ltac:(lia) C1) as (rup1 & E2 & C2 & X2 & H2). exists rup1. split; [exact E2|]. split; [exact C2|]. split; [eapply rext_trans; eassumption|].
      intros i Hi Hn. destruct (Nat.eq_dec i a) as [->|]; [eapply rext_has; eassumption|apply H2; [lia|exact Hn]].
    - cbn [bind]. destruct (IHn (S a) rs ltac:(lia) Crs) as (rup1 & E2 & C2 & X2 & H2). exists rup1. split; [exact E2|]. split; [exact C2|]. split; [exact X2|].
      intros i Hi Hn. destruct (Nat.eq_dec i a) as [->|]; [apply nth_error_nth with (d := false) in Hn; congruence|apply H2; [lia|exact Hn]]. }
  destruct (A (length (iv_active iv)) 0%nat rup ltac:(lia) Cu) as (rup1 & E1 & C1 & X1 & H1). rewrite E1. cbn [bind]. eexists. split; [reflexivity|]. split.
  - cbn [closed emplace find_tid]. split; [|exact C1]. intros t iv' F. cbn [find_tid] in F. destruct (tid_eqb_spec tid t) as [<-|]; [|discriminate]. injection F as <-. split; [exact G|].
    intros i Hi. apply H1; [|exact Hi]. assert (nth_error (iv_active iv) i <> None) by congruence. apply nth_error_Some in H. lia.
  - cbn [hasref emplace find_tid]. destruct (tid_eqb_spec tid tid); [discriminate|contradiction].
Qed.
End Refs.
