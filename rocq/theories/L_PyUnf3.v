From Coq Require Import List Arith Bool Lia ZArith Permutation Sorting.Sorted.
From Verif Require Import M_Domain S_Domain L_Domain L_DomainQ L_DomainT P_Domain.
From Verif Require Import M_PyBase M_PyNodes M_PyFacets M_PyMesh M_PyUnf S_PyTp S_PyTpMesh S_PyMesh S_PyFacets S_PyUnf L_PyNodes L_PyFacets L_PyMesh P_PyMesh P_PyFacets P_PyTpMesh P_PyTpMesh2 L_PyUnf L_PyUnf2.
Import ListNotations.
Local Open Scope Z_scope.

Lemma is_nil_iff l : is_nil l = true <-> l = [].
Proof. destruct l; split; auto; discriminate. Qed.
Lemma is_nil_false l : is_nil l = false -> exists x, In x l.
Proof. destruct l as [|x l]; [discriminate|]. exists x. cbn. auto. Qed.
Lemma unique_in_iff l x : In x (mf_unique l) <-> In x l.
Proof. apply (unique_ok l). Qed.
Lemma diff_in a b u x : In x (mf_difference a b u) <-> In x a /\ ~ In x b.
Proof.
  destruct (C115_set_operations a b) as (_ & _ & _ & (_ & I) & _). destruct u; [|apply I]. unfold mf_difference. rewrite filter_In, negb_true_iff, <- (mem_iff x b). destruct (mem_f x b); intuition congruence.
Qed.
Lemma diff_nodup a b u : NoDup a -> NoDup (mf_difference a b u).
Proof. intros N. unfold mf_difference. apply NoDup_filter. destruct u; auto. apply unique_nodup. Qed.

Section Lists.
  Variables (argsort : list Z -> list nat) (g : grid) (p : process) (m : mesh) (D : domain) (n_local : nat).
  Hypothesis Ha : sorts argsort.
  Hypothesis HD : domain_on g D m n_local.
  Hypothesis HP : facets_on g p m.
  Hypothesis H0 : range_begin p = 0%nat.
  Let GF := get_facets argsort p m D.
  Lemma gf q ty : In q (facet_queries D) -> exists l, GF q ty = Ret l /\ NoDup l /\ forall x, In x l <-> mesh_facet p ty x /\ on_facet g m q x.
  Proof. intros Hq. apply (get_facets_ok argsort g p m D n_local Ha HD HP q ty Hq). auto. Qed.
  (** The lists computed by an object without cached lists. *)
  Definition fresh (w : which) (e : bool) : outcome (list facet) :=
    match w, e with
    | WCut, true =>
        cut <- GF (is_cut_facet D) Exterior ;; unf <- GF (has_unfitted_boundary D) AllFacets ;;
        (if is_nil unf then Ret cut else
              full <- GF (is_full_unfitted_facet D) AllFacets ;;
              let partial := mf_difference unf full false in
              Ret (if is_nil partial then cut else mf_unique (mf_concatenate cut partial)))
    | WCut, false => GF (is_cut_facet D) Interior
    | WFull, true => full <- GF (is_full_facet D) Exterior ;; unf <- GF (is_full_unfitted_facet D) AllFacets ;; Ret (if is_nil unf then full else mf_unique (mf_concatenate full unf))
    | WFull, false => GF (is_full_facet D) Interior
    | WEmpty, true => GF (is_empty_facet D) Exterior
    | WEmpty, false => GF (is_empty_facet D) Interior
    end.
  (** What they hold: as wanted, but for the empty facets of interior integrals. *)
  Definition listed (w : which) (e : bool) (x : facet) : Prop :=
    match w, e with WEmpty, false => mesh_facet p Interior x /\ on_facet g m (is_empty_facet D) x | _, _ => wanted g p m D w e x end.
  Lemma fresh_ok w e : exists l, fresh w e = Ret l /\ NoDup l /\ forall x, In x l <-> listed w e x.
  Proof.
    destruct w, e; cbn [fresh listed wanted].
    - destruct (gf (is_cut_facet D) Exterior) as (cut & E1 & N1 & I1); [cbn; auto|]. destruct (gf (has_unfitted_boundary D) AllFacets) as (unf & E2 & N2 & I2); [cbn; auto 6|]. destruct (gf (is_full_unfitted_facet D) AllFacets) as (full & E3 & N3 & I3); [cbn; auto 6|].
      rewrite E1, E2. cbn [bind]. destruct (is_nil unf) eqn:X.
      + apply is_nil_iff in X. subst. exists cut. split; auto. split; auto. intros x. rewrite I1. split; auto. intros [H|(A & B & _)]; auto. destruct (proj2 (I2 x) (conj A B)).
      + rewrite E3. cbn [bind]. cbv zeta. destruct (is_nil (mf_difference unf full false)) eqn:Y; eexists; (split; [reflexivity|]).
        * split; auto. intros x. rewrite I1. split; auto. intros [H|(A & B & C)]; auto. exfalso. apply is_nil_iff in Y. assert (In x (mf_difference unf full false)) as J; [|rewrite Y in J; destruct J]. apply diff_in. rewrite I2, I3. tauto.
        * split; [apply unique_nodup|]. intros x. rewrite unique_in_iff. unfold mf_concatenate. rewrite in_app_iff, I1, diff_in, I2, I3. split; [|tauto]. intros [H|((A & B) & C)]; [left; auto|right; tauto].
    - destruct (gf (is_cut_facet D) Interior) as (l & E & N & I); [cbn; auto|]. eauto.
    - destruct (gf (is_full_facet D) Exterior) as (ful & E1 & N1 & I1); [cbn; auto|]. destruct (gf (is_full_unfitted_facet D) AllFacets) as (unf & E3 & N3 & I3); [cbn; auto 6|].
      rewrite E1, E3. cbn [bind]. destruct (is_nil unf) eqn:X; eexists; (split; [reflexivity|]).
      + apply is_nil_iff in X. subst. split; auto. intros x. rewrite I1. split; auto. intros [H|H]; auto. apply I3 in H. destruct H.
      + split; [apply unique_nodup|]. intros x. rewrite unique_in_iff. unfold mf_concatenate. rewrite in_app_iff, I1, I3. tauto.
    - destruct (gf (is_full_facet D) Interior) as (l & E & N & I); [cbn; auto|]. eauto.
    - destruct (gf (is_empty_facet D) Exterior) as (l & E & N & I); [cbn; auto|]. eauto.
    - destruct (gf (is_empty_facet D) Interior) as (l & E & N & I); [cbn; auto|]. eauto.
  Qed.

  (** The cached lists. *)
  Definition cached (s : caches) (w : which) (e : bool) : option (list facet) :=
    match w, e with WCut, true => c_ext_cut s | WCut, false => c_int_cut s | WFull, true => c_ext_full s | WFull, false => c_int_full s | WEmpty, true => c_ext_empty s | WEmpty, false => c_int_empty s end.
  Definition is_ci (w : which) (e : bool) : bool := match w, e with WCut, false => true | _, _ => false end.
  Definition is_ei (w : which) (e : bool) : bool := match w, e with WEmpty, false => true | _, _ => false end.
  (** [dirty]: the cached list of cut facets of interior integrals may be wrong. *)
  Definition inv (dirty : bool) (s : caches) : Prop :=
    forall w e l, cached s w e = Some l -> (is_ci w e = true /\ dirty = true) \/ fresh w e = Ret l.
  Lemma inv_none : inv false no_caches.
  Proof. intros w e l. destruct w, e; discriminate. Qed.
  Lemma inv_weak d s : inv d s -> inv true s.
  Proof. intros H w e l E. destruct (H w e l E) as [(A & _)|]; auto. Qed.
  Lemma get_simple w e d s : is_ei w e = false -> inv d s -> exists l s', get_which argsort p m D w e s = Ret (l, s') /\ inv d s' /\ (fresh w e = Ret l \/ (is_ci w e = true /\ d = true)).
  Proof.
    intros NE I. destruct (cached s w e) as [l|] eqn:C.
    - exists l, s. split; [destruct w, e; try discriminate NE; cbn in C |- *; unfold cut_ext, cut_int, full_ext, full_int, empty_ext; rewrite C; reflexivity|]. split; auto. destruct (I w e l C) as [H|H]; auto.
    - destruct (fresh_ok w e) as (l & E & _). exists l.
      destruct w, e; try discriminate NE; cbn [cached] in C; cbn [fresh] in E; cbn [get_which is_ci];
        unfold cut_ext, cut_int, full_ext, full_int, empty_ext; rewrite C; fold GF.
      + exists (set_ext_cut s l). split; [destruct (GF (is_cut_facet D) Exterior); try discriminate E; cbn [bind] in E |- *; destruct (GF (has_unfitted_boundary D) AllFacets); try discriminate E; cbn [bind] in E |- *; match goal with |- bind ?u _ = _ => replace u with (Ret l) by (symmetry; exact E) end; reflexivity|].
        split; [|left; exact E]. intros w' e' l' C'. destruct w', e'; first [exact (I WCut true l' C')|exact (I WCut false l' C')|exact (I WFull true l' C')|exact (I WFull false l' C')|exact (I WEmpty true l' C')|exact (I WEmpty false l' C')|idtac]. right. cbn in C'. injection C' as <-. exact E.
      + exists (set_int_cut s l). rewrite E. split; [reflexivity|]. split; [|left; exact E]. intros w' e' l' C'. destruct w', e'; first [exact (I WCut true l' C')|exact (I WCut false l' C')|exact (I WFull true l' C')|exact (I WFull false l' C')|exact (I WEmpty true l' C')|exact (I WEmpty false l' C')|idtac]. right. cbn in C'. injection C' as <-. exact E.
      + exists (set_ext_full s l). split; [destruct (GF (is_full_facet D) Exterior); try discriminate E; cbn [bind] in E |- *; destruct (GF (is_full_unfitted_facet D) AllFacets); try discriminate E; cbn [bind] in E |- *; injection E as ->; reflexivity|].
        split; [|left; exact E]. intros w' e' l' C'. destruct w', e'; first [exact (I WCut true l' C')|exact (I WCut false l' C')|exact (I WFull true l' C')|exact (I WFull false l' C')|exact (I WEmpty true l' C')|exact (I WEmpty false l' C')|idtac]. right. cbn in C'. injection C' as <-. exact E.
      + exists (set_int_full s l). rewrite E. split; [reflexivity|]. split; [|left; exact E]. intros w' e' l' C'. destruct w', e'; first [exact (I WCut true l' C')|exact (I WCut false l' C')|exact (I WFull true l' C')|exact (I WFull false l' C')|exact (I WEmpty true l' C')|exact (I WEmpty false l' C')|idtac]. right. cbn in C'. injection C' as <-. exact E.
      + exists (set_ext_empty s l). rewrite E. split; [reflexivity|]. split; [|left; exact E]. intros w' e' l' C'. destruct w', e'; first [exact (I WCut true l' C')|exact (I WCut false l' C')|exact (I WFull true l' C')|exact (I WFull false l' C')|exact (I WEmpty true l' C')|exact (I WEmpty false l' C')|idtac]. right. cbn in C'. injection C' as <-. exact E.
  Qed.
  Definition no_unf : Prop := ~ exists x, mesh_facet p Interior x /\ on_facet g m (has_unfitted_boundary D) x /\ ~ on_facet g m (is_cut_facet D) x.
  (** get_empty_facets for interior integrals: the cached cut facets stay right only without non-cut facets on the unfitted boundary. *)
  Lemma get_empty_int d s : inv d s -> exists l s', get_which argsort p m D WEmpty false s = Ret (l, s') /\ fresh WEmpty false = Ret l /\ inv true s' /\ (no_unf -> inv d s')
    /\ (s = no_caches -> forall x, mesh_facet p Interior x -> on_facet g m (has_unfitted_boundary D) x -> ~ on_facet g m (is_cut_facet D) x -> exists l', c_int_cut s' = Some l' /\ In x l').
  Proof.
    intros I. cbn [get_which]. unfold empty_int. destruct (c_int_empty s) as [l|] eqn:C.
    - exists l, s. split; auto. destruct (I WEmpty false l C) as [(H & _)|H]; [discriminate H|]. split; auto. split; [eapply inv_weak; eauto|]. split; [auto|]. intros ->. discriminate C.
    - destruct (fresh_ok WEmpty false) as (l & E & _). pose proof E as E'. cbn [fresh] in E'. fold GF. rewrite E'. cbn [bind]. cbv zeta.
      destruct (gf (has_unfitted_boundary D) Interior) as (unf & E2 & N2 & I2); [cbn; auto 6|]. rewrite E2. cbn [bind].
      assert (I1 : inv d (set_int_empty s l)). { intros w' e' l' C'. destruct w', e'; first [exact (I WCut true l' C')|exact (I WCut false l' C')|exact (I WFull true l' C')|exact (I WFull false l' C')|exact (I WEmpty true l' C')|exact (I WEmpty false l' C')|idtac]. right. cbn in C'. injection C' as <-. exact E. }
      destruct (is_nil unf) eqn:X.
      + apply is_nil_iff in X. subst unf. cbn [bind]. do 2 eexists. split; [reflexivity|]. split; auto. split; [eapply inv_weak; eauto|]. split; auto. intros _ x A B _. destruct (proj2 (I2 x) (conj A B)).
      + destruct (get_simple WCut false d (set_int_empty s l) eq_refl I1) as (c & s2 & Ec & Is & Fc). cbn [get_which] in Ec. rewrite Ec. cbn [bind fst snd].
        destruct (is_nil (mf_difference unf c true)) eqn:Y; cbn [bind]; do 2 eexists; (split; [reflexivity|]); (split; [exact E|]).
        * split; [eapply inv_weak; eauto|]. split; auto. intros -> x A B Nc. exfalso. apply is_nil_iff in Y. assert (In x (mf_difference unf c true)) as J; [|rewrite Y in J; destruct J]. apply diff_in. rewrite I2. split; auto.
          cbn in Ec. destruct (fresh_ok WCut false) as (c' & E3 & _ & I3). cbn [fresh] in E3. unfold cut_int in Ec. cbn in Ec. fold GF in Ec. rewrite E3 in Ec. cbn [bind] in Ec. injection Ec as <- <-. rewrite I3. cbn. tauto.
        * split; [intros w' e' l' C'; destruct w', e'; first [pose proof (Is WCut true l' C') as Q|pose proof (Is WFull true l' C') as Q|pose proof (Is WFull false l' C') as Q|pose proof (Is WEmpty true l' C') as Q|pose proof (Is WEmpty false l' C') as Q|pose proof I as Q]; first [left; split; reflexivity|destruct Q as [(Q & _)|Q]; [discriminate Q|right; exact Q]]|]. split.
          -- intros NU. destruct (is_nil_false _ Y) as (x & Hx). apply diff_in in Hx. destruct Hx as (Hx & Nx). apply I2 in Hx. intros w' e' l' C'. destruct w', e'; cbn [is_ci]; first [exact (Is WCut true l' C')|exact (Is WFull true l' C')|exact (Is WFull false l' C')|exact (Is WEmpty true l' C')|exact (Is WEmpty false l' C')|idtac].
             destruct d; [left; auto|]. destruct Fc as [Fc|(_ & Fc)]; [|discriminate Fc]. exfalso. apply NU. exists x. destruct Hx as (A & B). split; auto. split; auto. intros Q. apply Nx. destruct (fresh_ok WCut false) as (c' & E3 & _ & I3). assert (c = c') by congruence. subst c'. apply I3. cbn. auto.
          -- intros -> x A B Nc. eexists. split; [reflexivity|]. apply unique_in_iff. unfold mf_concatenate. apply in_or_app. right. apply diff_in. rewrite I2. split; auto.
             destruct (fresh_ok WCut false) as (c' & E3 & _ & I3). cbn [fresh] in E3. unfold cut_int in Ec. cbn in Ec. fold GF in Ec. rewrite E3 in Ec. cbn [bind] in Ec. injection Ec as <- <-. rewrite I3. cbn. tauto.
  Qed.
  Lemma run_ok ops : forall d s, inv d s -> exists rs, run_getters argsort p m D ops s = Ret rs /\ length rs = length ops /\
    forall k op, nth_error ops k = Some op -> fresh (fst op) (snd op) = Ret (nth k rs []) \/
      (op = (WCut, false) /\ (d = true \/ (~ no_unf /\ exists j, (j < k)%nat /\ nth_error ops j = Some (WEmpty, false)))).
  Proof.
    induction ops as [|op ops IH]; intros d s I; [exists []; split; auto; split; auto; intros [|k] op E; discriminate E|].
    cbn [run_getters].
    assert (ST : exists l s' d', get_which argsort p m D (fst op) (snd op) s = Ret (l, s') /\ inv d' s' /\ (d' = true -> d = true \/ (~ no_unf /\ op = (WEmpty, false)))
       /\ (fresh (fst op) (snd op) = Ret l \/ (op = (WCut, false) /\ d = true))).
    { destruct (is_ei (fst op) (snd op)) eqn:EI.
      - destruct op as ([] & []); try discriminate EI. destruct (get_empty_int d s I) as (l & s' & E & F & I1 & I2 & _). cbn [fst snd]. destruct d.
        + exists l, s', true. split; [exact E|]. split; [exact I1|]. split; [intros _; left; reflexivity|left; exact F].
        + assert (EM : no_unf \/ ~ no_unf).
          { unfold no_unf. destruct (gf (has_unfitted_boundary D) Interior) as (unf & _ & _ & J1); [cbn; auto 6|]. destruct (gf (is_cut_facet D) Interior) as (cut & _ & _ & J2); [cbn; auto|].
            destruct (is_nil (mf_difference unf cut true)) eqn:Y.
            - left. intros (x & A & B & C). apply is_nil_iff in Y. assert (In x (mf_difference unf cut true)) as J; [|rewrite Y in J; destruct J]. apply diff_in. rewrite J1, J2. tauto.
            - right. intros N. apply N. apply is_nil_false in Y. destruct Y as (x & Hx). apply diff_in in Hx. rewrite J1, J2 in Hx. exists x. tauto. }
          destruct EM as [NU|NU].
          * exists l, s', false. split; [exact E|]. split; [apply I2; exact NU|]. split; [discriminate|left; exact F].
          * exists l, s', true. split; [exact E|]. split; [exact I1|]. split; [intros _; right; split; [exact NU|reflexivity]|left; exact F].
      - destruct (get_simple (fst op) (snd op) d s EI I) as (l & s' & E & I' & F). exists l, s', d. split; [exact E|]. split; [exact I'|]. split; [auto|]. destruct F as [F|(F1 & F2)]; auto. right. split; auto. destruct op as ([] & []); try discriminate F1. auto. }
    destruct ST as (l & s' & d' & E & I' & Hd & F). rewrite E. cbn [bind fst snd]. destruct (IH d' s' I') as (rs & Er & Lr & Hr). rewrite Er. cbn [bind]. exists (l :: rs). split; auto. split; [cbn; lia|].
    intros [|k] op' Ek; cbn [nth_error nth] in *.
    - injection Ek as <-. destruct F as [F|F]; auto. right. tauto.
    - destruct (Hr k op' Ek) as [H|(Q1 & Q2)]; auto. right. split; auto. destruct Q2 as [Q2|(Q2 & j & Hj & Ej)].
      + destruct (Hd Q2) as [->|(Q3 & ->)]; auto. right. split; auto. exists 0%nat. split; [lia|auto].
      + right. split; auto. exists (S j). split; [lia|auto].
  Qed.
End Lists.
