(** Lemmas for the generated kernel: several quadratures, loops, histories of the shim. *)
From Coq Require Import List ZArith Reals Lia Lra.
From Verif Require Import M_PyBase M_PyPack M_PyKernel S_PyKernel L_PyKernel L_PyKernel2 L_PyKernel3 L_PyFacets.
Import ListNotations.
Local Open Scope nat_scope.

Section Kernel.
  Variables (valid : list Z -> bool) (etdim edofs evs : list Z -> nat) (phi : list Z -> list nat -> list R -> nat -> nat -> R) (grow : nat -> nat -> nat).
  Variables (interior mixed : bool) (tdim : nat).
  Hypothesis NB : interior = true -> mixed = false.
  Notation tok := (table_ok valid etdim edofs evs mixed tdim).
  Notation tab_ok := (tab_ok phi interior tdim).
  Definition varies (ts : list table) : Prop := exists t, In t ts /\ is_const t = false.

  Lemma filter_const : forall ts, ~ varies ts -> filter (fun t => negb (is_const t)) ts = [].
  Proof.
    intros ts. induction ts as [|t ts IH]; intros H; [reflexivity|]. cbn [filter]. destruct (is_const t) eqn:C; cbn [negb].
    - apply IH. intros [u [U V]]. apply H. exists u. split; [right; exact U|exact V].
    - exfalso. apply H. exists t. split; [left; reflexivity|exact C].
  Qed.
  Lemma quads_exec : forall qs q ls st, length ls = q + length qs -> Forall (data_ok interior mixed tdim) ls ->
    Forall (fun ts => Forall tok ts /\ NoDup (map t_id ts)) qs -> reg_ok valid (c_shim st) ->
    exists cs st', gen_all interior mixed tdim q qs = Ret cs /\ exec_all valid etdim edofs evs phi grow ls st cs = Ret (inr st') /\ reg_ok valid (c_shim st')
      /\ ((forall i ts, nth_error qs i = Some ts -> ~ varies ts) -> st' = st)
      /\ forall i ts l t, nth_error qs i = Some ts -> nth_error ls (q + i) = Some l -> In t ts -> is_const t = false ->
           (forall j us, i < j -> nth_error qs j = Some us -> ~ varies us) -> tab_ok l st' (length (s_buf (c_shim st'))) t.
  Proof.
    induction qs as [|ts qs IH]; intros q ls st LL DL FT RO.
    - exists [], st. cbn. split; [reflexivity|]. split; [reflexivity|]. split; [exact RO|]. split; [reflexivity|]. intros [|i]; discriminate.
    - inversion FT as [|? ? [FT1 ND1] FT2]; subst. cbn [length] in LL.
      destruct (nth_error ls q) as [l|] eqn:EL; [|apply nth_error_None in EL; lia].
      assert (DO : data_ok interior mixed tdim l) by (rewrite Forall_forall in DL; apply DL; eapply nth_error_In; exact EL).
      destruct (quad_exec valid etdim edofs evs phi grow interior mixed tdim q l DO ts st FT1 ND1 NB RO) as [c [st1 [E1 [X1 [RO1 [T1 C1]]]]]].
      destruct (IH (S q) ls st1) as [cs [st2 [E2 [X2 [RO2 [K2 T2]]]]]]; auto; [lia|].
      exists ((q, c) :: cs), st2. cbn [gen_all exec_all]. rewrite E1. cbn [bind]. rewrite E2. cbn [bind]. split; [reflexivity|].
      rewrite EL, X1. cbn [bind]. split; [exact X2|]. split; [exact RO2|]. split.
      + intros H. rewrite K2 by (intros i us U; apply (H (S i)); exact U).
        rewrite (C1 (filter_const ts (H 0 ts eq_refl))) in X1. cbn in X1. injection X1 as ->. reflexivity.
      + intros [|i] us l' t U L' It C H.
        * cbn in U. injection U as <-. rewrite Nat.add_0_r, EL in L'. injection L' as <-.
          rewrite K2; [apply T1; auto|]. intros i us U. apply (H (S i)); [lia|exact U].
        * apply (T2 i us l' t); auto; [rewrite <- L'; f_equal; lia|]. intros j vs J V. apply (H (S j)); [lia|exact V].
  Qed.

  Lemma pmap_all : forall (A B : Type) (f : A -> outcome B) (g : A -> B) xs, (forall x, In x xs -> f x = Ret (g x)) -> pmap f xs = Ret (map g xs).
  Proof. intros A B f g xs. induction xs as [|x xs IH]; intros H; [reflexivity|]. cbn [pmap map]. rewrite H by (left; reflexivity). cbn [bind]. rewrite IH by (intros; apply H; right; assumption). reflexivity. Qed.
  Lemma points_run : forall st perms ents rho l k iqs A,
    (forall iq a, In iq iqs -> In a (k_acc k) -> read_access interior st perms ents (with_iq rho iq) a = Ret (true_value phi interior tdim rho l iq a)) ->
    run_points interior tdim st perms ents rho l k iqs A
    = Ret (A + fold_right Rplus 0 (map (fun iq => k_body k (nth iq (l_w l) 0) (point tdim (l_nrm l) iq) (map (true_value phi interior tdim rho l iq) (k_acc k))) iqs))%R.
  Proof.
    intros st perms ents rho l k iqs. induction iqs as [|iq iqs IH]; intros A H.
    - cbn. f_equal. ring.
    - cbn [run_points]. rewrite (pmap_all _ _ _ (true_value phi interior tdim rho l iq)) by (intros a Ha; apply H; [left; reflexivity|exact Ha]). cbn [bind].
      rewrite IH by (intros; apply H; [right; assumption|assumption]). cbn [map fold_right]. unfold point at 2. rewrite (Nat.mul_comm iq tdim). f_equal. ring.
  Qed.
  Lemma loops_run : forall st perms ents rho ls ks A,
    (forall k, In k ks -> k_quad k < length ls /\ forall l iq a, nth_error ls (k_quad k) = Some l -> iq < length (l_w l) -> In a (k_acc k) ->
       read_access interior st perms ents (with_iq rho iq) a = Ret (true_value phi interior tdim rho l iq a)) ->
    run_loops interior tdim st perms ents rho ls ks A = Ret (A + kernel_sum phi interior tdim rho ls ks)%R.
  Proof.
    intros st perms ents rho ls ks. induction ks as [|k ks IH]; intros A H.
    - cbn. f_equal. ring.
    - destruct (H k (or_introl eq_refl)) as [KL KA]. cbn [run_loops]. destruct (nth_error ls (k_quad k)) as [l|] eqn:EL; [|apply nth_error_None in EL; lia].
      rewrite points_run by (intros iq a Hq Ha; apply KA; auto; apply in_seq in Hq; lia). cbn [bind].
      rewrite IH by (intros; apply H; right; assumption). f_equal. unfold kernel_sum. cbn [map fold_right]. unfold loop_sum at 2. rewrite (nth_error_nth _ _ _ EL). ring.
  Qed.

  (** *** The kernel, when the tables that vary are those of the last quadrature that has any. *)
  Lemma kernel_ok : forall qs ks perms ents rho ls s A,
    length ls = length qs -> Forall (data_ok interior mixed tdim) ls -> Forall (fun ts => Forall tok ts /\ NoDup (map t_id ts)) qs -> reg_ok valid s ->
    (forall k, In k ks -> exists ts l, nth_error qs (k_quad k) = Some ts /\ nth_error ls (k_quad k) = Some l
       /\ forall a, In a (k_acc k) -> In (a_tab a) ts /\ ffcx_access interior rho a /\ 2 <= t_qpts (a_tab a)
            /\ (two_sided interior (a_tab a) = false -> second_side interior a = false) /\ static_ok phi interior tdim perms ents rho l a
            /\ (is_const (a_tab a) = false -> forall j us, k_quad k < j -> nth_error qs j = Some us -> ~ varies us)) ->
    custom_kernel valid etdim edofs evs phi grow interior mixed tdim qs ks perms ents rho ls s A = Ret (A + kernel_sum phi interior tdim rho ls ks)%R.
  Proof.
    intros qs ks perms ents rho ls s A LL DL FT RO HK. unfold custom_kernel.
    destruct (quads_exec qs 0 ls {| c_env := fun _ => None; c_shim := s |}) as [cs [st [E [X [_ [_ T]]]]]]; auto.
    rewrite E. cbn [bind]. rewrite X. cbn [bind]. apply loops_run. intros k Hk. destruct (HK k Hk) as [ts [l [ET [EL HA]]]].
    split; [apply nth_error_Some; congruence|]. intros l' iq a EL' Hq Ha. rewrite EL in EL'. injection EL' as <-.
    destruct (HA a Ha) as [IT [FA [QP [TS [SO LV]]]]].
    assert (TO : tok (a_tab a)). { apply nth_error_In in ET. rewrite Forall_forall in FT. destruct (FT ts ET) as [F _]. rewrite Forall_forall in F. apply F. exact IT. }
    apply access_ok with (valid := valid) (etdim := etdim) (edofs := edofs) (evs := evs) (mixed := mixed); auto; try exact 0.
    - rewrite Forall_forall in DL. apply DL. eapply nth_error_In. exact EL.
    - intros C. apply (T (k_quad k) ts l (a_tab a)); auto. exact (LV C).
  Qed.
End Kernel.

(** *** Histories of the shim *)
Section History.
  Variables (valid : list Z -> bool) (etdim edofs evs : list Z -> nat) (phi : list Z -> list nat -> list R -> nat -> nat -> R) (grow : nat -> nat -> nat).
  Lemma store_reg : forall s gen off vals s', store s gen off vals = Ret s' -> s_reg s' = s_reg s /\ s_idx s' = s_idx s.
  Proof. intros s gen off vals s' E. unfold store in E. destruct (_ && _); [injection E as <-; split; reflexivity|discriminate]. Qed.
  Lemma tabulate_reg : forall s h nd flat n g gen off cap s' e, tabulate_impl etdim edofs evs phi s h nd flat n g gen off cap = Ret (s', e) -> s_reg s' = s_reg s /\ s_idx s' = s_idx s.
  Proof.
    intros s h nd flat n g gen off cap s' e E. unfold tabulate_impl in E. destruct (_ || _)%bool; [injection E as <- <-; split; reflexivity|].
    destruct (nth_error (s_reg s) (Z.to_nat h)); [|discriminate]. destruct (cap <? _); [injection E as <- <-; split; reflexivity|].
    destruct (negb _); [injection E as <- <-; split; reflexivity|]. destruct (length flat <? _); [discriminate|].
    destruct (store _ _ _ _) as [x| | |] eqn:ST; cbn [bind] in E; try discriminate. assert (x = s') by congruence. subst x. exact (store_reg _ _ _ _ _ ST).
  Qed.
  Lemma reg_ok_same : forall s s', s_reg s' = s_reg s -> s_idx s' = s_idx s -> reg_ok valid s -> reg_ok valid s'.
  Proof. intros s s' A B H. unfold reg_ok in *. rewrite A, B. exact H. Qed.
  Lemma register_any : forall s k, reg_ok valid s -> reg_ok valid (fst (register valid s k)).
  Proof.
    intros s k H. destruct (valid k) eqn:V; [destruct (register_ok valid s k H V) as [h [_ [_ [R _]]]]; exact R|].
    unfold register. rewrite V. destruct (lookup k (s_idx s)); exact H.
  Qed.
  Lemma reachable_ok : forall s, reachable valid etdim edofs evs phi grow s -> reg_ok valid s.
  Proof.
    intros s H. induction H as [|s k H IH|s n H IH|s H IH|s h nd flat n g gen off cap s' e H IH E|s gen off vals s' H IH E].
    - split; [|split; constructor]. intros k h. cbn. destruct h; split; discriminate.
    - apply register_any. exact IH.
    - destruct (scratch_ok grow s n) as [_ [A B]]. exact (reg_ok_same _ _ A B IH).
    - split; [|split; constructor]. intros k h. cbn. destruct h; split; discriminate.
    - destruct (tabulate_reg _ _ _ _ _ _ _ _ _ _ _ E) as [A B]. exact (reg_ok_same _ _ A B IH).
    - destruct (store_reg _ _ _ _ _ E) as [A B]. exact (reg_ok_same _ _ A B IH).
  Qed.
End History.
