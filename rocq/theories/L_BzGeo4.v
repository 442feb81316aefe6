(** Lemmas for the position of the points of a Bezier reparameterization: the plane. *)
From Coq Require Import Reals List Lia Lra Permutation Sorted Arith ZArith.
From Verif Require Import M_BzReparam S_BzReparam S_BzGeo S_General S_Mesh S_Roots L_Real L_BBox L_Point L_Mesh L_Roots P_Roots L_General L_General2 L_General3 L_Geo1 L_Geo2 L_BzReparam L_BzReparam2 L_BzReparam3 L_BzGeo1 L_BzGeo2 L_BzGeo3.
Import ListNotations.
Local Close Scope Z_scope. Local Close Scope nat_scope. Local Open Scope R_scope.

Lemma at_nth {A} (d : A) s i x : M_Mesh.at_ s i = Ret x -> nth_error s i = Some x /\ nth i s d = x /\ (i < length s)%nat.
Proof. unfold M_Mesh.at_. destruct (nth_error s i) eqn:E; [|discriminate]. intros H. injection H as <-. split; [reflexivity|]. split; [apply nth_error_nth; exact E|apply nth_error_Some; congruence]. Qed.
Lemma btw_le x0 x1 t : x0 <= x1 -> 0 <= t <= 1 -> x0 <= x0 + (x1 - x0) * t <= x1.
Proof. intros. split; nra. Qed.

Lemma wide_nth : forall roots i, nth i (wide roots) false = true -> (S i < length roots)%nat /\ tiny < Rabs (nth i roots 0 - nth (S i) roots 0).
Proof.
  induction roots as [|x0 roots IH]; intros i H; [destruct i; discriminate|]. destruct roots as [|x1 roots]; [destruct i; discriminate|]. cbn [wide] in H. destruct i as [|i].
  - cbn [nth] in *. apply Bool.negb_true_iff in H. apply tol_equal_niff in H. rewrite tiny_tol in H. split; [cbn; lia|exact H].
  - cbn [nth] in H. apply IH in H. cbn [length nth] in *. split; [lia|apply H].
Qed.

Section Base.
Context {P : Type}.
Variable Z : bz_oracles P.
Hypothesis HZ : bz_sound Z.
Variables (p : P) (k : nat).
Hypothesis HA : algoim_exact Z p k.
Hypothesis HC : forall x x', cut Z p k x -> cut Z p k x' -> x = x' \/ tiny < Rabs (x - x').
Notation qs := (z_elim Z [p] k).
Notation bas := (mk_bl 1 qs 0 0).
Lemma base_zeros q x : In q qs -> unit_interval x -> (In x (bz_roots Z bas q []) <-> z_eval Z q [x] = 0).
Proof.
  intros Hq Hx. destruct (ae_base _ _ _ HA q Hq) as [_ H]. rewrite <- (H x Hx). unfold bz_roots. cbn [v_dir]. destruct (z_line Z q [] 0); [rewrite filter_In; change (ins_at [] 0 x) with [x]; tauto|]. split; [intros []|intros [C _]; discriminate].
Qed.
Lemma base_roots iv : all_intervals Z bas [] = Ret iv -> StronglySorted Rle (ri_roots (iv_ri iv)) /\ (forall x, In x (ri_roots (iv_ri iv)) <-> cut Z p k x) /\ iv_active iv = wide (ri_roots (iv_ri iv)) /\ iv_point iv = [].
Proof.
  intros E. destruct (all_unit Z HZ bas []) as (iv' & mid & s & E' & Er & Ep & Ea & S1 & PS & SS & Ap). rewrite E in E'. injection E' as <-. set (T := tagp _ _) in *.
  assert (Mem : forall x, In x (map fst T) <-> (unit_interval x /\ exists q, In q qs /\ z_eval Z q [x] = 0)).
  { intros x. unfold T, tagp. split.
    - intros H. apply in_map_iff in H as (e & <- & H). apply in_flat_map in H as ([i q] & Hi & H). apply in_map_iff in H as (r & <- & Hr). cbn [fst snd] in *. apply in_indexed in Hi as [_ Hi]. apply nth_error_In in Hi. cbn [v_phi] in Hi.
      assert (U : unit_interval r) by (pose proof (roots_inside Z HZ bas q []) as F; rewrite Forall_forall in F; apply F; exact Hr). split; [exact U|]. exists q. split; [exact Hi|]. apply (base_zeros q r Hi U). exact Hr.
    - intros (U & q & Hq & H). apply in_map_iff. destruct (In_nth_error _ _ Hq) as (i & Hi). exists (x, BinInt.Z.of_nat i). split; [reflexivity|]. apply in_flat_map. exists (i, q). split.
      + unfold indexed. cbn [v_phi]. clear -Hi. assert (K : forall (l : list P) s i, nth_error l i = Some q -> In ((s + i)%nat, q) (combine (seq s (length l)) l)).
        { induction l as [|u l IH]; intros s j Hj; [destruct j; discriminate|]. cbn [length seq combine]. destruct j as [|j]; [left; cbn in Hj; f_equal; [lia|congruence]|]. right. replace (s + S j)%nat with (S s + j)%nat by lia. apply IH. exact Hj. }
        exact (K qs 0%nat i Hi).
      + cbn [fst snd]. apply in_map_iff. exists x. split; [reflexivity|]. apply (base_zeros q x Hq U). exact H. }
  assert (Em : mid = s).
  { apply Ap. intros u v Hu Hv. assert (C : forall w, In w (0 :: 1 :: map fst T) -> cut Z p k w) by (intros w [<-|[<-|Hw]]; [left; reflexivity|right; left; reflexivity|right; right; apply Mem; exact Hw]). apply HC; apply C; assumption. }
  subst mid. rewrite Er, roots_full. split; [exact S1|]. split; [|split; [rewrite Ea, Er, roots_full; reflexivity|exact Ep]].
  assert (PS' : forall x, In x (map fst s) <-> In x (map fst T)) by (intros x; split; apply Permutation_in; [|apply Permutation_sym]; apply Permutation_map; exact PS).
  intros x. cbn [In]. rewrite in_app_iff, PS', Mem. cbn [In]. unfold cut. intuition.
Qed.
End Base.

Section Plane.
Context {P : Type}.
Variable Z : bz_oracles P.
Hypothesis HZ : bz_sound Z.
Variables (p : P) (k : nat) (L : R) (lev : bool) (order : nat).
Hypothesis Hord : (2 <= order)%nat.
Hypothesis HA : algoim_exact Z p k.
Hypothesis HG : generic Z p k.
Hypothesis HL : slope Z p k L.
Lemma dir_k : (k < 2)%nat.
Proof. apply (bs_dir Z HZ 2 [p]). apply ae_dir. exact HA. Qed.
Lemma over_k x y : ins_at [x] k y = over k x y.
Proof. pose proof dir_k. destruct k as [|[|k']]; [reflexivity|reflexivity|lia]. Qed.
Definition well (v : R) : Prop := if lev then Rabs v <= 2 * L * tiny else v <= 2 * L * tiny.
Definition wellx (x : list R) : Prop := well (z_eval Z p (rev x)).
Notation top base := (mk_bl 2 [p] k base).
Notation f := (height_value Z p k).

(** What is known of a reference for the piece [a, b] of the base. *)
Definition piece (a b : R) (ref : intervals) : Prop := 0 <= a /\ a < b /\ b <= 1 /\ exists ys positive, layered f a b ys positive /\ separated ys (/ 2 * (a + b)) /\ (forall x, a <= x <= b -> orderly f ys x) /\
  ref_good a b ys positive lev ref.
Lemma piece_ref base a b r tid rs : (base <= 1)%nat -> cut Z p k a -> cut Z p k b -> a < b -> (forall x, cut Z p k x -> ~ a < x < b) -> 0 <= a -> b <= 1 ->
  ref_intervals Z lev [top base] [r] [/ 2 * (a + b)] tid = Ret rs -> exists ref, rs = [emplace r tid ref] /\ piece a b ref.
Proof.
  intros Hb Ca Cb Hab Hno H0 H1 E. destruct (gn_layers _ _ _ HG a b Ca Cb Hab Hno) as (ys & positive & Ly & Se & Or).
  destruct (ref_top Z HZ p k base dir_k (ae_zeros _ _ _ HA) a b ys positive Hab H0 H1 Ly Se Hb lev r tid rs E) as (ref & Er & G). exists ref. split; [exact Er|]. split; [exact H0|]. split; [exact Hab|]. split; [exact H1|]. exists ys, positive. auto.
Qed.
Lemma piece_process base a b r tid ptid ref x evs : (base <= 1)%nat -> piece a b ref -> find_tid r tid = Some ref -> a <= x <= b -> bz_process Z lev order [top base] [r] [x] tid ptid = Ret evs -> Forall (ev_ok wellx (fun _ => False)) evs.
Proof.
  intros Hb (H0 & Hab & H1 & ys & positive & Ly & Se & Or & Er & Ep & La & Ac) Ef Hx E. cbn [bz_process] in E. unfold intervals_at in E. rewrite Ef in E. cbn [v_dim Nat.eqb] in E. apply bind_inv in E as (iv & Ei & E).
  destruct (top_similar Z HZ p k base dir_k (ae_zeros _ _ _ HA) a b ys positive Hab H0 H1 Ly Se Or Hb ref x iv Hx Er Ep Ei) as (ms & A & B & S1 & Lm & Fm & Cl).
  rewrite A, B in E. apply Forall_forall. intros e He. destruct (foreach_in _ _ _ _ E He) as (i & ex & Hi & Ex & Hex). clear E He. apply in_seq in Hi. rewrite La in Hi.
  apply bind_inv in Ex as (v & Ev & Ex). apply (at_nth false) in Ev as (_ & Ev & _). destruct v; [|injection Ex as <-; destruct Hex]. specialize (Ac i Ev).
  apply bind_inv in Ex as (x0 & E0 & Ex). apply (at_nth 0) in E0 as (_ & E0 & _). apply bind_inv in Ex as (x1 & E1 & Ex). apply (at_nth 0) in E1 as (_ & E1 & L1). cbn [v_dir] in Ex. destruct lev eqn:Elev.
  - injection Ex as <-. destruct Hex as [<-|[]]. cbn [ev_ok]. unfold wellx, well. rewrite Elev. rewrite rev_involutive, over_k. cbn [nth] in E1. rewrite app_nth1 in E1 by lia. rewrite <- E1.
    exact (near_graph Z p k base dir_k a b ys positive H0 H1 Ly Hb L HL x ms i Hx Fm Lm Cl Ac).
  - destruct (foreach_in _ _ _ _ Ex Hex) as (j & ex' & Hj & Ex' & Hex'). injection Ex' as <-. destruct Hex' as [<-|[]]. cbn [ev_ok]. unfold wellx, well. rewrite Elev. rewrite rev_involutive, over_k.
    apply in_seq in Hj. assert (T : 0 <= node01 (z_cheb Z) order j <= 1) by (apply (node01_in Z HZ); lia).
    apply (near_strip Z p k base dir_k a b ys positive H0 H1 Ly Hb L HL x ms i); [exact Hx|exact Fm|exact Lm|exact Cl|lia|exact Ac|]. rewrite E0, E1. apply btw_le; [|exact T]. rewrite <- E0, <- E1.
    apply (sorted_nth _ 0 _ i (S i) S1). split; [lia|]. exact L1.
Qed.

(** No subdivision of the base. *)
Lemma flat_events evs : z_elim Z [p] k = [] -> reparam_events Z lev 2 order 1 [top 1] = Ret evs -> Forall (ev_ok wellx (fun _ => False)) evs.
Proof.
  intros Ee E. unfold reparam_events in E. cbn [map Nat.eqb repeat] in E. apply bind_inv in E as (refs & Er & E).
  replace (/ 2) with (/ 2 * (0 + 1)) in Er by lra.
  assert (Cu : forall x, cut Z p k x -> x = 0 \/ x = 1) by (intros x [C|[C|(_ & q & Hq & _)]]; [auto|auto|rewrite Ee in Hq; destruct Hq]).
  destruct (piece_ref 1 0 1 [] (tp_const 1 0%nat) refs) as (ref & -> & Pc); [lia|left; reflexivity|right; left; reflexivity|lra|intros x Hx; destruct (Cu x Hx); lra|lra|lra|exact Er|].
  apply Forall_forall. intros e He. destruct (foreach_in _ _ _ _ E He) as (ptid & ex & Hi & Ex & Hex). apply in_tp_all in Hi as [Lp Fp]. destruct ptid as [|j [|]]; try discriminate Lp. cbn [map] in Ex.
  inversion Fp as [|? ? Hj _]; subst. assert (F := piece_process 1 0 1 (emplace [] (tp_const 1 0%nat) ref) (tp_const 1 0%nat) [j] ref (node01 (z_cheb Z) order j) ex (le_n 1) Pc eq_refl (node01_in Z HZ order Hord j Hj) Ex).
  rewrite Forall_forall in F. apply F. exact Hex.
Qed.

(** A subdivision of the base. *)
Notation qs := (z_elim Z [p] k).
Notation bas := (mk_bl 1 qs 0 0).
(** The loop over the pieces. *)
Lemma fold_pieces roots (Hr : forall i, nth i (wide roots) false = true -> forall r tid rs, ref_intervals Z lev [top 0] [r] [/ 2 * (nth i roots 0 + nth (S i) roots 0)] tid = Ret rs -> exists ref, rs = [emplace r tid ref] /\ piece (nth i roots 0) (nth (S i) roots 0) ref) :
  forall n s act r st,
  foldM (fun (st : list bool * list refmap) i => v <- M_Mesh.at_ (fst st) i ;; if v : bool then x0 <- M_Mesh.at_ roots i ;; x1 <- M_Mesh.at_ roots (S i) ;; rs <- ref_intervals Z lev [top 0] (snd st) (ins_at [] 0 (/ 2 * (x0 + x1))) (ins_at [] 0 i) ;;
    b <- all_inactive [top 0] rs (ins_at [] 0 i) ;; Ret (set_at (fst st) i (negb b), rs) else Ret st) (seq s n) (act, [r]) = Ret st ->
  (forall i, nth i act false = true -> nth i (wide roots) false = true) -> (forall i, (s <= i)%nat -> find_tid r [i] = None) ->
  exists r', snd st = [r'] /\ length (fst st) = length act /\ (forall i, nth i (fst st) false = true -> nth i act false = true) /\ (forall i ref, find_tid r [i] = Some ref -> find_tid r' [i] = Some ref) /\
    forall i, (s <= i < s + n)%nat -> nth i (fst st) false = true -> exists ref, find_tid r' [i] = Some ref /\ piece (nth i roots 0) (nth (S i) roots 0) ref.
Proof.
  induction n as [|n IH]; intros s act r st E Hw Hn; cbn [seq foldM] in E; [injection E as <-; cbn; exists r; split; [reflexivity|]; split; [reflexivity|]; split; [auto|]; split; [auto|]; intros; lia|].
  apply bind_inv in E as ([act1 r1] & E1 & E). cbn [fst snd] in E1. apply bind_inv in E1 as (v & Ev & E1). apply (at_nth false) in Ev as (_ & Ev & Ls). destruct v.
  - apply bind_inv in E1 as (x0 & E0 & E1). apply (at_nth 0) in E0 as (_ & E0 & _). apply bind_inv in E1 as (x1 & E2 & E1). apply (at_nth 0) in E2 as (_ & E2 & _). apply bind_inv in E1 as (rs & Ers & E1). apply bind_inv in E1 as (bb & _ & E1).
    injection E1 as <- <-. change (ins_at [] 0 s) with [s] in Ers. change (ins_at [] 0 (/ 2 * (x0 + x1))) with [/ 2 * (x0 + x1)] in Ers. rewrite <- E0, <- E2 in Ers. destruct (Hr s (Hw s Ev) r [s] rs Ers) as (ref & -> & Pc).
    destruct (IH (S s) (set_at act s (negb bb)) (emplace r [s] ref) st E) as (r' & A & B & C & D & F).
    { intros i Hi. apply Hw. rewrite set_at_nth in Hi. destruct (Nat.eqb_spec s i) as [Q|Q]; [rewrite <- Q; exact Ev|exact Hi]. }
    { intros i Hi. rewrite find_emplace, (Hn i) by lia. destruct (tid_eqb_spec [s] [i]) as [Eq|]; [injection Eq; lia|reflexivity]. }
    exists r'. rewrite set_at_length in B. split; [exact A|]. split; [exact B|]. split; [|split].
    + intros i Hi. apply C in Hi. rewrite set_at_nth in Hi. destruct (Nat.eqb_spec s i) as [Q|Q]; [rewrite <- Q; exact Ev|exact Hi].
    + intros i ref' Hf. apply D. rewrite find_emplace, Hf. reflexivity.
    + intros i Hi Ha. destruct (Nat.eq_dec i s) as [->|Ne]; [|apply F; [lia|exact Ha]]. exists ref. split; [|exact Pc]. apply D. rewrite find_emplace, (Hn s) by lia. destruct (tid_eqb_spec [s] [s]) as [_|Ne]; [reflexivity|contradiction].
  - injection E1 as <- <-. destruct (IH (S s) act r st E Hw) as (r' & A & B & C & D & F); [intros i Hi; apply Hn; lia|]. exists r'. split; [exact A|]. split; [exact B|]. split; [exact C|]. split; [exact D|].
    intros i Hi Ha. destruct (Nat.eq_dec i s) as [->|Ne]; [|apply F; [lia|exact Ha]]. apply C in Ha. congruence.
Qed.
Lemma split_events evs : reparam_events Z lev 2 order 0 [bas; top 0] = Ret evs -> Forall (ev_ok wellx (fun _ => False)) evs.
Proof.
  intros E. unfold reparam_events in E. cbn [map Nat.eqb] in E. apply bind_inv in E as (refs & Er & E).
  change (ref_intervals Z lev [bas; top 0] [[]; []] [] []) with
    (iv <- all_intervals Z bas [] ;; st <- foldM (fun (st : list bool * list refmap) i => v <- M_Mesh.at_ (fst st) i ;; if v : bool then x0 <- M_Mesh.at_ (ri_roots (iv_ri iv)) i ;; x1 <- M_Mesh.at_ (ri_roots (iv_ri iv)) (S i) ;; rs <- ref_intervals Z lev [top 0] (snd st) (ins_at [] 0 (/ 2 * (x0 + x1))) (ins_at [] 0 i) ;;
    b <- all_inactive [top 0] rs (ins_at [] 0 i) ;; Ret (set_at (fst st) i (negb b), rs) else Ret st) (seq 0 (length (iv_active iv))) (iv_active iv, [[]]) ;; Ret (emplace [] [] (mk_iv (iv_ri iv) [] (fst st)) :: snd st)) in Er.
  apply bind_inv in Er as (iv & Ei & Er). destruct (base_roots Z HZ p k HA (gn_cuts _ _ _ HG) iv Ei) as (So & Mem & Ea & _). set (roots := ri_roots (iv_ri iv)) in *.
  assert (Un : forall x, In x roots -> unit_interval x) by (intros x Hx; apply Mem in Hx as [->|[->|[U _]]]; [unfold unit_interval; lra|unfold unit_interval; lra|exact U]).
  assert (Gap : forall i, (S i < length roots)%nat -> nth i roots 0 <= nth (S i) roots 0 /\ In (nth i roots 0) roots /\ In (nth (S i) roots 0) roots) by (intros i Hi; split; [apply (sorted_nth _ 0 _ i (S i) So); lia|split; apply nth_In; lia]).
  apply bind_inv in Er as (st & Est & Er).
  destruct (fold_pieces roots) with (n := length (iv_active iv)) (s := 0%nat) (act := iv_active iv) (r := @nil (list nat * intervals)) (st := st) as (r' & A & B & C & _ & D).
  - intros i Hi r tid rs E1. destruct (wide_nth roots i Hi) as [Hlen Hw]. destruct (Gap i Hlen) as (Hle & I0 & I1). apply (piece_ref 0 _ _ r tid rs); [lia|apply Mem; exact I0|apply Mem; exact I1| | |apply Un; exact I0|apply Un; exact I1|exact E1].
    + pose proof tiny_pos. destruct (Req_dec (nth i roots 0) (nth (S i) roots 0)) as [Eq|Ne]; [rewrite Eq, Rminus_eq_0, Rabs_R0 in Hw; lra|lra].
    + intros x Hx Hb. apply Mem in Hx. assert (N0 : nth_error roots i = Some (nth i roots 0)) by (apply nth_error_nth'; lia). assert (N1 : nth_error roots (S i) = Some (nth (S i) roots 0)) by (apply nth_error_nth'; lia).
      destruct (sorted_gap roots i _ _ So N0 N1) as [_ Hg]. destruct (Hg x Hx); lra.
  - exact Est.
  - intros i Hi. rewrite Ea in Hi. exact Hi.
  - intros i _. reflexivity.
  - rewrite A in Er. injection Er as <-.
    change (bz_process Z lev order [bas; top 0] [emplace [] [] (mk_iv (iv_ri iv) [] (fst st)); r'] [] [] []) with
      (foreach (fun i => v <- M_Mesh.at_ (fst st) i ;; if v : bool then x0 <- M_Mesh.at_ roots i ;; x1 <- M_Mesh.at_ roots (S i) ;;
         foreach (fun j => bz_process Z lev order [top 0] [r'] [x0 + (x1 - x0) * node01 (z_cheb Z) order j] [i] [j]) (seq 0 order) else Ret []) (seq 0 (length (fst st)))) in E.
    apply Forall_forall. intros e He. destruct (foreach_in _ _ _ _ E He) as (i & ex & Hi & Ex & Hex). apply in_seq in Hi.
    apply bind_inv in Ex as (v & Ev & Ex). apply (at_nth false) in Ev as (_ & Ev & _). destruct v; [|injection Ex as <-; destruct Hex].
    apply bind_inv in Ex as (x0 & E0 & Ex). apply (at_nth 0) in E0 as (_ & E0 & _). apply bind_inv in Ex as (x1 & E1 & Ex). apply (at_nth 0) in E1 as (_ & E1 & L1).
    destruct (foreach_in _ _ _ _ Ex Hex) as (j & ex' & Hj & Ex' & Hex'). apply in_seq in Hj. assert (T : 0 <= node01 (z_cheb Z) order j <= 1) by (apply (node01_in Z HZ); lia).
    destruct (D i ltac:(lia) Ev) as (ref & Ef & Pc). destruct (Gap i L1) as (Hle & _). rewrite E0, E1 in *.
    assert (F := piece_process 0 x0 x1 r' [i] [j] ref _ ex' (Nat.le_0_l 1) Pc Ef (btw_le x0 x1 _ Hle T) Ex'). rewrite Forall_forall in F. apply F. exact Hex'.
Qed.
(** Every event. *)
Lemma build_two r : z_empty Z p = false -> bz_build Z true 2 (bz_kept Z 2 [p] []) = Ret r -> (qs = [] /\ r = (k, 1%nat, [top 1])) \/ (qs <> [] /\ r = (k, 0%nat, [bas; top 0])).
Proof.
  intros Ez E. cbn [bz_kept] in E. rewrite Ez in E. cbn [app] in E. cbn [bz_build] in E. rewrite (ae_dir _ _ _ HA) in E. apply bind_inv in E as (bb & Eb & E). apply bind_inv in E as (u & _ & E). injection E as <-. 
  destruct (z_elim Z [p] k) as [|q qs'] eqn:Eq.
  - left. split; [reflexivity|]. cbn in Eb. injection Eb as <-. reflexivity.
  - right. split; [discriminate|]. cbn in Eb. injection Eb as <-. reflexivity.
Qed.
Definition fullgood (b : bbox) : Prop := b = box01 2 /\ lev = false.
Lemma plane_events evs : (lev = true \/ z_empty Z p = false) -> bz_events Z lev 2 order [p] = Ret evs -> Forall (ev_ok wellx (fun _ => False)) evs.
Proof.
  intros Hl E. unfold bz_events in E. apply bind_inv in E as (r & Er & E). destruct (z_empty Z p) eqn:Ez.
  - destruct Hl as [Hl|]; [|discriminate]. assert (r = (2%nat, 2%nat, [])) by (cbn [bz_kept] in Er; rewrite Ez in Er; destruct (Rltb _ _) in Er; cbn in Er; congruence). subst r. cbn [fst snd] in E. unfold reparam_events in E. rewrite Hl in E. injection E as <-. constructor.
  - destruct (build_two r Ez Er) as [[Eq ->]|[_ ->]]; cbn [fst snd] in E; [apply flat_events; assumption|apply split_events; exact E].
Qed.
End Plane.
