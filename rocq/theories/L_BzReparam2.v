(** Lemmas for the Bezier reparameterization: reference intervals and process. *)
From Coq Require Import Reals List Lia Lra Permutation Arith ZArith.
From Verif Require Import M_BzReparam S_BzReparam S_General S_Mesh S_Roots L_Real L_BBox L_Point L_TensorNat L_Mesh L_Roots L_General L_General2 L_General3 L_General4 L_BzReparam.
Import ListNotations.
Local Close Scope Z_scope. Local Close Scope nat_scope. Local Open Scope R_scope.

Section Refs.
Context {P : Type}.
Variable Z : bz_oracles P.
Hypothesis HZ : bz_sound Z.
Variable lev : bool.

Fixpoint bclosed (lvs : list (blevel P)) (refs : list refmap) : Prop :=
  match lvs, refs with
  | [], [] => True
  | l :: up, r :: rup => (forall t iv, find_tid r t = Some iv -> good l iv /\ forall i, nth_error (iv_active iv) i = Some true -> hasref rup (ins_at t (v_dir l) i)) /\ bclosed up rup
  | _, _ => False
  end.
Lemma bclosed_clear : forall lvs refs, length lvs = length refs -> bclosed lvs (clear_refs refs).
Proof. induction lvs as [|l up IH]; intros [|r rup] H; cbn in *; try discriminate; [exact I|]. split; [intros; discriminate|]. apply IH. lia. Qed.
Lemma bclosed_nils : forall lvs : list (blevel P), bclosed lvs (map (fun _ => []) lvs).
Proof. induction lvs as [|l up IH]; cbn; [exact I|]. split; [intros; discriminate|exact IH]. Qed.
Lemma bclosed_len : forall lvs refs, bclosed lvs refs -> length lvs = length refs.
Proof. induction lvs as [|l up IH]; intros [|r rup] H; cbn in *; try tauto. f_equal. apply IH, H. Qed.
Lemma nth_error_nth_b (l : list bool) i : nth i l false = true -> nth_error l i = Some true.
Proof. intros H. destruct (nth_error l i) eqn:E; [apply nth_error_nth with (d := false) in E; congruence|]. apply nth_error_None in E. rewrite nth_overflow in H by lia. discriminate. Qed.

Lemma all_inactive_ok : forall lvs refs tid, bclosed lvs refs -> hasref refs tid -> exists b, all_inactive lvs refs tid = Ret b.
Proof.
  induction lvs as [|l up IH]; intros [|r rup] tid C H; cbn [bclosed] in C; [exists true; reflexivity|destruct C|destruct C|]. destruct C as [Cr Cu]. cbn [hasref] in H. cbn [all_inactive].
  destruct (find_tid r tid) as [iv|] eqn:E; [|congruence]. destruct (Cr tid iv E) as [_ Ch].
  match goal with |- exists b, foldM ?f ?s ?a = _ => destruct (foldM_inv f (fun _ => True) s a I) as (b & Eb & _) end; [|exists b; exact Eb].
  intros acc i Hi _. apply in_seq in Hi. destruct acc; [|exists false; auto]. rewrite (L_Mesh.at_ok (iv_active iv) i false) by lia. cbn [bind]. destruct (nth i (iv_active iv) false) eqn:Ea; [|exists true; auto].
  destruct up as [|u up]; [exists false; auto|]. destruct (IH rup (ins_at tid (v_dir l) i) Cu) as [b Eb]; [apply Ch; apply nth_error_nth_b; exact Ea|]. exists b. auto.
Qed.

(** One step of the recursion, given the one above. *)
Lemma ref_step l up r rup pt tid : (forall rs pt tid, bclosed up rs -> exists rs', ref_intervals Z lev up rs pt tid = Ret rs' /\ bclosed up rs' /\ hasref rs' tid /\ rext rs rs') ->
  let rup0 := if (v_dim l =? 1)%nat then clear_refs rup else rup in bclosed up rup0 -> (forall t iv, find_tid r t = Some iv -> good l iv /\ forall i, nth_error (iv_active iv) i = Some true -> hasref rup0 (ins_at t (v_dir l) i)) ->
  exists iv rup1, ref_intervals Z lev (l :: up) (r :: rup) pt tid = Ret (emplace r tid iv :: rup1) /\ bclosed (l :: up) (emplace r tid iv :: rup1) /\ hasref (emplace r tid iv :: rup1) tid /\ rext rup0 rup1 /\
    iv_point iv = pt /\ (forall i p, In (i, p) (indexed l) -> cnt i (ri_roots_ids (iv_ri iv)) = length (bz_roots Z l p pt)).
Proof.
  intros IH rup0 C0 Cr. cbn [ref_intervals]. fold rup0. destruct (all_intervals_ok Z HZ l pt) as (iv & E & [G La] & Ep & Ea & Hc). rewrite E. cbn [bind].
  assert (K : exists act rup1, foldM (fun (st : list bool * list refmap) i =>
              a <- M_Mesh.at_ (fst st) i ;;
              if a : bool then
                x0 <- M_Mesh.at_ (ri_roots (iv_ri iv)) i ;; x1 <- M_Mesh.at_ (ri_roots (iv_ri iv)) (S i) ;;
                let x := ins_at pt (v_dir l) (/ 2 * (x0 + x1)) in
                match up with
                | [] => Ret (set_at (fst st) i (point_inside Z l x), snd st)
                | _ => rs <- ref_intervals Z lev up (snd st) x (ins_at tid (v_dir l) i) ;;
                       b <- all_inactive up rs (ins_at tid (v_dir l) i) ;;
                       Ret (set_at (fst st) i (negb b), rs)
                end
              else Ret st) (seq 0 (length (iv_active iv))) (iv_active iv, rup0) = Ret (act, rup1) /\ length act = length (iv_active iv) /\ bclosed up rup1 /\ rext rup0 rup1 /\
              forall i, nth i act false = true -> hasref rup1 (ins_at tid (v_dir l) i)).
  { assert (A : forall n a act rs, length act = length (iv_active iv) -> (a + n = length (iv_active iv))%nat -> bclosed up rs -> (forall i, (i < a)%nat -> nth i act false = true -> hasref rs (ins_at tid (v_dir l) i)) ->
        exists act' rs', foldM (fun (st : list bool * list refmap) i =>
              a <- M_Mesh.at_ (fst st) i ;;
              if a : bool then
                x0 <- M_Mesh.at_ (ri_roots (iv_ri iv)) i ;; x1 <- M_Mesh.at_ (ri_roots (iv_ri iv)) (S i) ;;
                let x := ins_at pt (v_dir l) (/ 2 * (x0 + x1)) in
                match up with
                | [] => Ret (set_at (fst st) i (point_inside Z l x), snd st)
                | _ => rs <- ref_intervals Z lev up (snd st) x (ins_at tid (v_dir l) i) ;;
                       b <- all_inactive up rs (ins_at tid (v_dir l) i) ;;
                       Ret (set_at (fst st) i (negb b), rs)
                end
              else Ret st) (seq a n) (act, rs) = Ret (act', rs') /\ length act' = length (iv_active iv) /\ bclosed up rs' /\ rext rs rs' /\ forall i, (i < a + n)%nat -> nth i act' false = true -> hasref rs' (ins_at tid (v_dir l) i)).
    { induction n as [|n IHn]; intros a act rs Hl Han Crs Hb; cbn [seq foldM]; [exists act, rs; split; [reflexivity|split; [exact Hl|split; [exact Crs|split; [apply rext_refl|intros i Hi; apply Hb; lia]]]]|].
      cbn [fst snd]. rewrite (L_Mesh.at_ok act a false) by lia. cbn [bind]. destruct (nth a act false) eqn:Ea'.
      - rewrite (L_Mesh.at_ok _ a 0) by lia. cbn [bind]. rewrite (L_Mesh.at_ok _ (S a) 0) by lia. cbn [bind].
        set (x := ins_at pt (v_dir l) _).
        assert (St : exists v rs1, match up with
                | [] => Ret (set_at act a (point_inside Z l x), rs)
                | _ => rs0 <- ref_intervals Z lev up rs x (ins_at tid (v_dir l) a) ;; b <- all_inactive up rs0 (ins_at tid (v_dir l) a) ;; Ret (set_at act a (negb b), rs0)
                end = Ret (set_at act a v, rs1) /\ bclosed up rs1 /\ rext rs rs1 /\ hasref rs1 (ins_at tid (v_dir l) a)).
        { destruct up as [|u up']; [eexists _, rs; split; [reflexivity|]; split; [exact Crs|]; split; [apply rext_refl|]; destruct rs; [exact I|destruct Crs]|].
          destruct (IH rs x (ins_at tid (v_dir l) a) Crs) as (rs1 & E1 & C1 & H1 & X1). rewrite E1. cbn [bind]. destruct (all_inactive_ok (u :: up') rs1 _ C1 H1) as [b Eb]. rewrite Eb. cbn [bind]. eexists _, rs1. split; [reflexivity|auto]. }
        destruct St as (v & rs1 & -> & C1 & X1 & H1). cbn [bind]. destruct (IHn (S a) (set_at act a v) rs1) as (act' & rs' & E2 & L2 & C2 & X2 & H2); [rewrite set_at_length; exact Hl|lia|exact C1| |].
        { intros i Hi. rewrite set_at_nth. destruct (Nat.eqb_spec a i) as [->|Ne]; [intros _; exact H1|]. intros Hn. eapply rext_has; [exact X1|]. apply Hb; [lia|exact Hn]. }
        exists act', rs'. split; [exact E2|]. split; [exact L2|]. split; [exact C2|]. split; [eapply rext_trans; eassumption|]. intros i Hi. apply H2. lia.
      - cbn [bind]. destruct (IHn (S a) act rs Hl ltac:(lia) Crs) as (act' & rs' & E2 & L2 & C2 & X2 & H2).
        { intros i Hi Hn. apply Hb; [|exact Hn]. destruct (Nat.eq_dec i a) as [->|]; [congruence|lia]. }
        exists act', rs'. split; [exact E2|]. split; [exact L2|]. split; [exact C2|]. split; [exact X2|]. intros i Hi. apply H2. lia. }
    destruct (A (length (iv_active iv)) 0%nat (iv_active iv) rup0 eq_refl eq_refl C0) as (act & rup1 & E1 & L1 & C1 & X1 & H1); [intros; lia|]. exists act, rup1. split; [exact E1|]. split; [exact L1|]. split; [exact C1|]. split; [exact X1|].
    intros i Hi. apply H1; [|exact Hi]. destruct (Nat.lt_ge_cases i (length act)) as [Hl|Hl]; [lia|]. rewrite nth_overflow in Hi by lia. discriminate. }
  destruct K as (act & rup1 & E1 & L1 & C1 & X1 & H1). cbv zeta in E1 |- *. fold rup0 in E1. fold rup0. rewrite E1. cbn [bind fst snd]. set (act' := match up with [] => _ | _ => _ end).
  assert (La' : length act' = length (iv_active iv)) by (unfold act'; destruct up; [destruct lev; [rewrite changes_len|]|]; exact L1).
  assert (Ha' : forall i, nth_error act' i = Some true -> hasref rup1 (ins_at tid (v_dir l) i)).
  { intros i Hi. destruct up as [|u up']; [destruct rup1; [exact I|destruct C1]|]. apply H1. unfold act' in Hi. apply nth_error_nth with (d := false) in Hi. exact Hi. }
  clearbody act'. exists (mk_iv (iv_ri iv) pt act'), rup1. split; [reflexivity|]. split; [|split; [|split; [exact X1|split; [reflexivity|exact Hc]]]].
  - cbn [bclosed]. split; [|exact C1]. intros t iv' F. rewrite find_emplace in F. destruct (find_tid r t) as [iv0|] eqn:Et.
    + injection F as <-. destruct (Cr t iv0 Et) as [Cg Ch]. split; [exact Cg|]. intros i Hi. eapply rext_has; [exact X1|]. apply Ch. exact Hi.
    + destruct (tid_eqb_spec tid t) as [<-|]; [|discriminate]. injection F as <-. split; [split; [exact G|cbn [iv_active iv_ri]; lia]|exact Ha'].
  - cbn [hasref]. rewrite find_emplace. destruct (find_tid r tid); [discriminate|]. destruct (tid_eqb_spec tid tid); [discriminate|contradiction].
Qed.
Lemma ref_ok : forall lvs refs pt tid, Forall (fun l => v_dim l <> 1%nat) lvs -> bclosed lvs refs ->
  exists refs', ref_intervals Z lev lvs refs pt tid = Ret refs' /\ bclosed lvs refs' /\ hasref refs' tid /\ rext refs refs'.
Proof.
  induction lvs as [|l up IH]; intros [|r rup] pt tid D C; cbn [bclosed] in C; [exists []; cbn; split; [reflexivity|split; [exact I|split; [exact I|constructor]]]|destruct C|destruct C|].
  inversion D as [|? ? Dl Du]; subst. destruct C as [Cr Cu]. destruct (ref_step l up r rup pt tid (fun rs p t => IH rs p t Du)) as (iv & rup1 & E & C & H & X & _).
  - destruct (Nat.eqb_spec (v_dim l) 1); [contradiction|exact Cu].
  - destruct (Nat.eqb_spec (v_dim l) 1); [contradiction|exact Cr].
  - exists (emplace r tid iv :: rup1). split; [exact E|]. split; [exact C|]. split; [exact H|]. destruct (Nat.eqb_spec (v_dim l) 1); [contradiction|]. constructor; [|exact X]. intros t iv' F. rewrite find_emplace, F. reflexivity.
Qed.
(** The lowest object, from empty maps. *)
Lemma ref_start l up pt tid : Forall (fun l => v_dim l <> 1%nat) up ->
  exists iv rup1, ref_intervals Z lev (l :: up) (map (fun _ => []) (l :: up)) pt tid = Ret ([(tid, iv)] :: rup1) /\ bclosed (l :: up) ([(tid, iv)] :: rup1) /\ iv_point iv = pt /\
    (forall i p, In (i, p) (indexed l) -> cnt i (ri_roots_ids (iv_ri iv)) = length (bz_roots Z l p pt)).
Proof.
  intros Du. cbn [map]. destruct (ref_step l up [] (map (fun _ => []) up) pt tid (fun rs p t => ref_ok up rs p t Du)) as (iv & rup1 & E & C & H & X & Ep & Hc).
  - destruct (_ =? _)%nat; [apply bclosed_clear; rewrite map_length; reflexivity|apply bclosed_nils].
  - intros t iv F. discriminate.
  - exists iv, rup1. auto.
Qed.
End Refs.

Section Process.
Context {P : Type}.
Variable Z : bz_oracles P.
Hypothesis HZ : bz_sound Z.
Variables (lev : bool) (range order : nat).
Hypothesis Hord : (2 <= order)%nat.
Notation complete := (complete range (box01 range) Vol).

(** The objects of dimensions d + 1, ..., range. *)
Fixpoint chain (d : nat) (lvs : list (blevel P)) : Prop :=
  match lvs with
  | [] => d = range
  | l :: up => v_dim l = S d /\ (v_dir l <= d)%nat /\ chain (S d) up
  end.
Definition fine (l : blevel P) : Prop := v_dim l = 1%nat \/ (v_base l < v_dim l - 1)%nat.
Fixpoint bcells (lvs : list (blevel P)) (refs : list refmap) (tid : list nat) : list (list nat) :=
  match lvs, refs with
  | l :: up, r :: rup =>
      match find_tid r tid with
      | None => []
      | Some ref => flat_map (fun i => if nth i (iv_active ref) false then match up with [] => [ins_at tid (v_dir l) i] | _ => bcells up rup (ins_at tid (v_dir l) i) end else []) (seq 0 (length (iv_active ref)))
      end
  | _, _ => []
  end.
Fixpoint bpts (lvs : list (blevel P)) (ptid : list nat) : list (list nat) :=
  match lvs with
  | [] => []
  | l :: up => if (match up with [] => lev | _ => false end) then [ptid]
               else flat_map (fun j => match up with [] => [ins_at ptid (v_dir l) j] | _ => bpts up (ins_at ptid (v_dir l) j) end) (seq 0 order)
  end.
Lemma node01_in j : (j < order)%nat -> 0 <= node01 (z_cheb Z) order j <= 1.
Proof.
  intros Hj. unfold node01. destruct (use_chebyshev order); [apply (bs_cheb Z HZ); exact Hj|]. assert (1 <= INR (order - 1)) by (apply (le_INR 1); lia). assert (INR j <= INR (order - 1)) by (apply le_INR; lia). pose proof (pos_INR j).
  split; [apply Rmult_le_pos; [lra|left; apply Rinv_0_lt_compat; lra]|]. apply (Rmult_le_reg_r (INR (order - 1))); [lra|]. unfold Rdiv. rewrite Rmult_assoc, Rinv_l by lra. lra.
Qed.
Lemma cube_final x : in_cube range x -> final range (box01 range) Vol (rev x).
Proof.
  intros [L F]. split; [rewrite rev_length; exact L|]. split; [|intros c v [=]]. intros d Hd. unfold lo, hi, box01. cbn [bmin bmax].
  assert (E0 : nth d (repeat 0 range) 0 = 0) by apply nth_repeat. assert (E1 : nth d (repeat 1 range) 0 = 1) by (rewrite (nth_indep _ 0 1) by (rewrite repeat_length; exact Hd); apply nth_repeat).
  rewrite ?E0, ?E1. rewrite Forall_forall in F. apply F. apply in_rev. apply nth_In. rewrite rev_length. lia.
Qed.
Lemma btw x0 x1 t : 0 <= x0 <= 1 -> 0 <= x1 <= 1 -> 0 <= t <= 1 -> 0 <= x0 + (x1 - x0) * t <= 1.
Proof. intros A B C. assert (E : x0 + (x1 - x0) * t = x0 * (1 - t) + x1 * t) by ring. rewrite E. split; nra. Qed.
Lemma complete_one t p x : final range (box01 range) Vol x -> complete [Insert t p x] [t] [p].
Proof.
  intros Hx. split; [constructor; [|constructor]; eexists _, _, _; split; [reflexivity|split; [left; reflexivity|split; [left; reflexivity|exact Hx]]]|]. split; [|intros _; reflexivity].
  intros t' q [<- | []] [<- | []]. exists x. left. reflexivity.
Qed.
Definition noub (lvs : list (blevel P)) (refs : list refmap) (tid : list nat) (pt : list R) : Prop :=
  match lvs, refs with
  | l :: _, r :: _ => v_dim l <> 1%nat /\ exists ref, find_tid r tid = Some ref /\ mismatch Z l ref pt
  | _, _ => False
  end.
Lemma fine_noub l ref pt : fine l -> v_dim l <> 1%nat -> ~ mismatch Z l ref pt.
Proof. intros [F|F] D [H _]; [contradiction|lia]. Qed.
Lemma bprocess_ok : forall lvs d refs pt tid ptid, lvs <> [] -> chain d lvs -> Forall fine (tl lvs) -> Forall (fun l => v_dim l <> 1%nat) (tl lvs) -> bclosed lvs refs -> hasref refs tid -> in_cube d pt ->
  okub (noub lvs refs tid pt) (bz_process Z lev order lvs refs pt tid ptid) (fun evs => complete evs (bcells lvs refs tid) (bpts lvs ptid)).
Proof.
  induction lvs as [|l up IH]; intros d refs pt tid ptid Hne W Fu Du C Hr Hp; [congruence|]. destruct refs as [|r rup]; [destruct C|]. destruct W as (Wd & Wk & Wu). destruct C as [Cr Cu]. cbn [hasref] in Hr. cbn [tl] in Fu, Du.
  destruct (find_tid r tid) as [ref|] eqn:Er; [|congruence]. destruct (Cr tid ref Er) as [Cg Ch]. cbn [bz_process bcells bpts]. rewrite Er.
  eapply okub_bind with (Q := alike ref).
  { unfold intervals_at. rewrite Er. destruct (Nat.eqb_spec (v_dim l) 1) as [D1|D1].
    - cbn. split; [apply (goodr_inside _ _ (proj1 Cg))|split; reflexivity].
    - pose proof (similar_ok Z HZ l ref pt Cg) as S. destruct (similar_intervals Z l ref pt); cbn [okub] in *; auto. cbn [noub]. split; [exact D1|]. exists ref. auto. }
  intros iv (Fi & Lr & La). rewrite La.
  assert (Hlen : forall i, (i < length (iv_active ref))%nat -> (S i < length (ri_roots (iv_ri iv)))%nat) by (intros i Hi; destruct Cg as [_ G]; lia).
  eapply okub_impl; [apply foreach_ub with (Q := fun i e => complete e (if nth i (iv_active ref) false then match up with [] => [ins_at tid (v_dir l) i] | _ => bcells up rup (ins_at tid (v_dir l) i) end else [])
     (bpts (l :: up) ptid))|].
  2: { intros evs (es & -> & Hes). apply (complete_cells range order (box01 range) Vol Hord). exact Hes. }
  intros i Hi. apply in_seq in Hi. rewrite (L_Mesh.at_ok (iv_active ref) i false) by lia. cbn [bind]. destruct (nth i (iv_active ref) false) eqn:Ea; [|cbn [okub]; apply complete_nil].
  pose proof (nth_error_nth_b _ _ Ea) as Han. specialize (Hlen i ltac:(lia)). rewrite (L_Mesh.at_ok _ i 0) by lia. cbn [bind]. rewrite (L_Mesh.at_ok _ (S i) 0) by lia. cbn [bind].
  set (x0 := nth i (ri_roots (iv_ri iv)) 0). set (x1 := nth (S i) (ri_roots (iv_ri iv)) 0).
  assert (I0 : 0 <= x0 <= 1) by (rewrite Forall_forall in Fi; apply Fi, nth_In; lia). assert (I1 : 0 <= x1 <= 1) by (rewrite Forall_forall in Fi; apply Fi, nth_In; lia).
  cbn [bpts]. destruct (match up with [] => lev | _ => false end) eqn:EL.
  - destruct up as [|u up]; [|discriminate]. cbn [okub]. apply complete_one, cube_final. cbn [chain] in Wu. rewrite <- Wu. apply in_cube_add; assumption.
  - eapply okub_impl; [apply foreach_ub with (Q := fun j e => complete e (match up with [] => [ins_at tid (v_dir l) i] | _ => bcells up rup (ins_at tid (v_dir l) i) end)
         (match up with [] => [ins_at ptid (v_dir l) j] | _ => bpts up (ins_at ptid (v_dir l) j) end))|].
    2: { intros evs (es & -> & Hes). apply (complete_pts range order (box01 range) Vol Hord). exact Hes. }
    intros j Hj. apply in_seq in Hj. set (pt' := ins_at pt (v_dir l) (x0 + (x1 - x0) * node01 (z_cheb Z) order j)).
    assert (Hp' : in_cube (S d) pt') by (apply in_cube_add; [exact Hp|]; apply btw; [exact I0|exact I1|apply node01_in; lia]).
    destruct up as [|u up].
    + cbn [okub]. apply complete_one, cube_final. cbn [chain] in Wu. rewrite <- Wu. exact Hp'.
    + pose proof (IH (S d) rup pt' (ins_at tid (v_dir l) i) (ins_at ptid (v_dir l) j) ltac:(discriminate) Wu) as K. cbn [tl] in K. inversion Fu as [|? ? Fuu Fut]; subst. inversion Du as [|? ? Duu Dut]; subst. specialize (K Fut Dut Cu (Ch i Han) Hp').
      destruct (bz_process Z lev order (u :: up) rup pt' (ins_at tid (v_dir l) i) (ins_at ptid (v_dir l) j)) as [evs| | |]; cbn [okub] in *; try tauto.
      exfalso. destruct rup as [|ru rup]; [destruct Cu|]. destruct K as (D1 & ref' & _ & M). eapply fine_noub; eassumption.
Qed.

Lemma bcells_inj : forall lvs refs t t' x, length t = length t' -> In x (bcells lvs refs t) -> In x (bcells lvs refs t') -> t = t'.
Proof.
  induction lvs as [|l up IH]; intros [|r rup] t t' x L; cbn [bcells]; try (intros []; fail). destruct (find_tid r t) as [ref|]; [|intros []]. destruct (find_tid r t') as [ref'|]; [|intros _ []].
  rewrite !in_flat_map. intros (i & _ & H) (j & _ & H'). destruct (nth i (iv_active ref) false); [|destruct H]. destruct (nth j (iv_active ref') false); [|destruct H'].
  destruct up as [|u up].
  - destruct H as [<-|[]]. destruct H' as [E|[]]. symmetry in E. apply (ins_at_inj t t' (v_dir l) i j L) in E. apply E.
  - apply (IH rup) with (t' := ins_at t' (v_dir l) j) in H; [|rewrite !ins_at_length; lia|exact H']. apply ins_at_inj in H; [apply H|exact L].
Qed.
Lemma bcells_nodup : forall lvs refs t, NoDup (bcells lvs refs t).
Proof.
  induction lvs as [|l up IH]; intros [|r rup] t; cbn [bcells]; try constructor. destruct (find_tid r t) as [ref|]; [|constructor].
  assert (K : forall s, NoDup s -> NoDup (flat_map (fun i => if nth i (iv_active ref) false then match up with [] => [ins_at t (v_dir l) i] | _ => bcells up rup (ins_at t (v_dir l) i) end else []) s)).
  { induction s as [|i s IHs]; intros Ns; cbn [flat_map]; [constructor|]. inversion Ns as [|? ? Ni Ns']; subst. apply nodup_append; [|apply IHs; exact Ns'|].
    - destruct (nth i (iv_active ref) false); [|constructor]. destruct up; [constructor; [intros []|constructor]|apply IH].
    - intros x Hx Hy. apply in_flat_map in Hy as (j & Hj & Hy). destruct (nth i (iv_active ref) false); [|destruct Hx]. destruct (nth j (iv_active ref) false); [|destruct Hy]. assert (E : ins_at t (v_dir l) i = ins_at t (v_dir l) j).
      { destruct up as [|u up]; [destruct Hx as [<-|[]]; destruct Hy as [<-|[]]; reflexivity|]. eapply bcells_inj; [|exact Hx|exact Hy]. rewrite !ins_at_length. reflexivity. }
      apply ins_at_inj in E as [_ ->]; [contradiction|reflexivity]. }
  apply K, seq_NoDup.
Qed.
Notation mdim := (mesh_dim range lev).
(** The points of a cell, from the bottom. *)
Lemma bpts_index : forall lvs d ptid p, lvs <> [] -> chain d lvs -> is_index d order ptid -> In p (bpts lvs ptid) -> is_index mdim order p.
Proof.
  induction lvs as [|l up IH]; intros d ptid p Hne W Hi Hp; [congruence|]. destruct W as (Wd & Wk & Wu). cbn [bpts] in Hp. destruct (match up with [] => lev | _ => false end) eqn:EL.
  - destruct up as [|u up]; [|discriminate]. destruct Hp as [<-|[]]. cbn [chain] in Wu. unfold mesh_dim. rewrite EL. replace (range - 1)%nat with d by lia. exact Hi.
  - apply in_flat_map in Hp as (j & Hj & Hp). apply in_seq in Hj. assert (Hi' : is_index (S d) order (ins_at ptid (v_dir l) j)).
    { destruct Hi as [L F]. split; [rewrite ins_at_length; lia|]. rewrite Forall_forall in *. intros y Hy. apply ins_at_In in Hy as [->|Hy]; [lia|apply F; exact Hy]. }
    destruct up as [|u up]; [|eapply IH; [discriminate|exact Wu|exact Hi'|exact Hp]]. destruct Hp as [<-|[]]. cbn [chain] in Wu. unfold mesh_dim. rewrite EL. rewrite <- Wu. exact Hi'.
Qed.
Lemma bpts_surj : forall lvs d p, lvs <> [] -> chain d lvs -> is_index mdim order p -> exists ptid, is_index d order ptid /\ In p (bpts lvs ptid).
Proof.
  induction lvs as [|l up IH]; intros d p Hne W Hp; [congruence|]. destruct W as (Wd & Wk & Wu). cbn [bpts].
  assert (Split : forall q, is_index (S d) order q -> is_index d order (firstn (v_dir l) q ++ skipn (S (v_dir l)) q) /\ q = ins_at (firstn (v_dir l) q ++ skipn (S (v_dir l)) q) (v_dir l) (nth (v_dir l) q 0%nat) /\ (nth (v_dir l) q 0 < order)%nat).
  { intros q [L F]. assert (E := ins_at_split 0%nat q (v_dir l) ltac:(lia)). split; [|split; [exact E|rewrite Forall_forall in F; apply F, nth_In; lia]]. split.
    - apply (f_equal (@length nat)) in E. rewrite ins_at_length in E. lia.
    - rewrite Forall_forall in *. intros y Hy. apply F. rewrite E. apply ins_at_In. right. exact Hy. }
  destruct up as [|u up].
  - cbn [chain] in Wu. unfold mesh_dim in Hp. destruct lev.
    + exists p. replace (range - 1)%nat with d in Hp by lia. split; [exact Hp|left; reflexivity].
    + rewrite <- Wu in Hp. destruct (Split p Hp) as (H1 & H2 & H3). eexists. split; [exact H1|]. apply in_flat_map. exists (nth (v_dir l) p 0%nat). split; [apply in_seq; lia|]. left. symmetry. exact H2.
  - destruct (IH (S d) p ltac:(discriminate) Wu Hp) as (q & Hq & Hin). destruct (Split q Hq) as (H1 & H2 & H3). eexists. split; [exact H1|]. apply in_flat_map. exists (nth (v_dir l) q 0%nat). split; [apply in_seq; lia|]. rewrite <- H2. exact Hin.
Qed.
Lemma flat_map_const_len {A B} (f : A -> list B) n : forall s, (forall x, In x s -> length (f x) = n) -> length (flat_map f s) = (length s * n)%nat.
Proof. induction s as [|x s IH]; intros H; cbn [flat_map length]; [reflexivity|]. rewrite app_length, (H x) by (left; reflexivity). rewrite IH by (intros; apply H; right; assumption). reflexivity. Qed.
Lemma bpts_len : forall lvs d ptid, lvs <> [] -> chain d lvs -> length (bpts lvs ptid) = (order ^ (mdim - d))%nat.
Proof.
  induction lvs as [|l up IH]; intros d ptid Hne W; [congruence|]. destruct W as (Wd & Wk & Wu). cbn [bpts]. assert (Hd : (S d <= range)%nat).
  { clear -Wu. revert Wu. generalize (S d). induction up as [|u up IHu]; intros e H; cbn [chain] in H; [lia|]. destruct H as (_ & _ & H). apply IHu in H. lia. }
  destruct up as [|u up].
  - cbn [chain] in Wu. unfold mesh_dim. destruct lev; [cbn [length]; replace (range - 1 - d)%nat with 0%nat by lia; reflexivity|].
    rewrite (flat_map_const_len _ 1%nat) by (intros; reflexivity). rewrite seq_length. replace (range - d)%nat with 1%nat by lia. rewrite Nat.pow_1_r. lia.
  - rewrite (flat_map_const_len _ (order ^ (mdim - S d))%nat) by (intros; apply IH; [discriminate|exact Wu]). rewrite seq_length.
    assert (Hd2 : (S (S d) <= range)%nat). { cbn [chain] in Wu. destruct Wu as (_ & _ & Wu). clear -Wu. revert Wu. generalize (S (S d)). induction up as [|v up IHu]; intros e H; cbn [chain] in H; [lia|]. destruct H as (_ & _ & H). apply IHu in H. lia. }
    replace (mdim - d)%nat with (S (mdim - S d)) by (unfold mesh_dim; destruct lev; lia). reflexivity.
Qed.
End Process.
