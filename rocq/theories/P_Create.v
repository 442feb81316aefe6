(** Theorems for the reparameterization of unfitted domains (C89, C90). *)
From Coq Require Import Reals List Lia Lra Permutation Arith ZArith Sorting.Sorted.
From Verif Require Import S_Domain L_Grid L_Domain L_DomainQ L_DomainT M_Reparam M_General S_General S_Create S_Mesh S_Orient S_Point L_Real L_BBox L_Point L_TensorNat L_Mesh L_Mesh3 L_Mesh5 L_Orient L_Orient2 L_Orient3 L_Reparam L_Reparam2 L_Reparam3 L_Create P_General.
Import ListNotations.
Local Close Scope Z_scope. Local Close Scope R_scope. Local Open Scope nat_scope.

Lemma create_ok g sign ccell cfacet D s O grad fresh sort esort range (S : bool) cells order :
  built g sign ccell cfacet D s -> range = 2 \/ range = 3 -> length (breaks g) = range -> Forall (cell_id g) cells -> 2 <= order -> sound O range ->
  (forall id b, In id cells -> get_cell_domain g id = Ret b -> large_box range b) ->
  let dim := if S then range - 1 else range in
  exists cut_ids full_ids cut full cut_boxes full_boxes m1 m, get_cells D Ccut = Ret cut_ids /\ get_cells D Cfull = Ret full_ids /\
    StronglySorted Z.le cut /\ Permutation cut (filter (fun id => if in_dec Z.eq_dec id cut_ids then true else false) cells) /\
    StronglySorted Z.le full /\ Permutation full (filter (fun id => if in_dec Z.eq_dec id full_ids then true else false) cells) /\
    Forall2 (fun id b => get_cell_domain g id = Ret b) cut cut_boxes /\ Forall2 (fun id b => get_cell_domain g id = Ret b) full full_boxes /\
    (forall merge, create_reparameterization O grad fresh sort esort range S D cells order merge = if merge then merge_coincident_points (sort (m_points m)) esort range m (10000 * eps)%R else Ret m) /\
    vm dim m /\ rangem range m /\ m_order m = order /\
    regions_added dim range (o_phi O) (10000 * / 2 ^ 52)%R cut_boxes (mk_mesh order [] [] []) m1 /\
    (if S then m = m1 else lattices_added (o_cheb O) range full_boxes m1 m) /\
    Forall (fun p => Exists (fun b => in_box b p) (if S then cut_boxes else cut_boxes ++ full_boxes)) (m_points m).
Proof.
  intros HB Hr Hn HC Ho HO HL dim. assert (Hu : usable_grid g) by apply HB. pose proof (df_grid _ _ _ _ _ _ (built_facts _ _ _ _ _ _ HB)) as HD.
  destruct (targets_ok g sign ccell cfacet D s Ccut cells HB (or_introl eq_refl) HC) as (call & cut & EC & Ecut & Scut & Pcut & Fcut).
  destruct (targets_ok g sign ccell cfacet D s Cfull cells HB (or_intror eq_refl) HC) as (fall & full & EF & Efull & Sfull & Pfull & Ffull).
  destruct (boxes_exist g cut Hu Fcut) as (cb & Hcb & _ & _). destruct (boxes_exist g full Hu Ffull) as (fb & Hfb & Mfb & Gfb). rewrite Hn in Gfb.
  assert (Lcb : Forall (large_box range) cb).
  { assert (Hin : forall id, In id cut -> In id cells) by (intros id Hi; apply (Permutation_in _ Pcut) in Hi; apply filter_In in Hi; apply Hi). clear - Hcb Hin HL.
    induction Hcb as [|id b ids bs E _ IH]; constructor; [apply (HL id); [apply Hin; left; reflexivity|exact E]|apply IH; intros; apply Hin; right; assumption]. }
  set (m0 := mk_mesh order [] [] []). assert (V0 : vm dim m0) by (split; [exact Ho|]; split; [exists 0; reflexivity|]; split; [exists 0; reflexivity|]; split; constructor). assert (R0 : rangem range m0) by constructor.
  destruct (regions_ok O grad fresh range S D g Hr HO HD cut cb Hcb Lcb m0 V0 R0) as (m1 & E1 & V1 & Rm1 & Eo1 & RA & more & Ep & Fp). cbn [m0 m_points app] in Ep.
  assert (EE : forall merge, create_reparameterization O grad fresh sort esort range S D cells order merge =
    m2 <- (if S then Ret m1 else reparam_full O range D full m1) ;; if merge then merge_coincident_points (sort (m_points m2)) esort range m2 (10000 * eps)%R else Ret m2).
  { intros merge. unfold create_reparameterization, new_mesh. replace (1 <? order) with true by (symmetry; apply Nat.ltb_lt; lia). cbn [assert_]. rewrite Ecut. cbn [bind]. fold m0. rewrite E1. cbn [bind].
    destruct S; [reflexivity|]. rewrite Efull. reflexivity. }
  exists call, fall, cut, full, cb, fb, m1. destruct S.
  - exists m1. split; [exact EC|]. split; [exact EF|]. split; [exact Scut|]. split; [exact Pcut|]. split; [exact Sfull|]. split; [exact Pfull|]. split; [exact Hcb|]. split; [exact Hfb|].
    split; [exact EE|]. split; [exact V1|]. split; [exact Rm1|]. split; [exact Eo1|]. split; [exact RA|]. split; [reflexivity|]. rewrite Ep. exact Fp.
  - destruct (lattices_ok (o_cheb O) range Hr (s_cheb _ _ HO) fb Gfb m1 V1 Rm1) as (m & E & V & Rm & Eo & LA & more' & Ep' & Fp').
    assert (E2 : reparam_full O range D full m1 = Ret m) by (unfold reparam_full; rewrite HD, Mfb; exact E). rewrite E2 in EE. cbn [bind] in EE.
    exists m. split; [exact EC|]. split; [exact EF|]. split; [exact Scut|]. split; [exact Pcut|]. split; [exact Sfull|]. split; [exact Pfull|]. split; [exact Hcb|]. split; [exact Hfb|].
    split; [exact EE|]. split; [exact V|]. split; [exact Rm|]. split; [rewrite Eo; exact Eo1|]. split; [exact RA|]. split; [exact LA|].
    rewrite Ep', Ep. apply Forall_app. split; [eapply Forall_impl; [|exact Fp]|eapply Forall_impl; [|exact Fp']]; intros p Hp; apply Exists_app; [left|right]; exact Hp.
Qed.

(** C89: create_reparameterization of any cells of any domain, without merging, terminates normally; the valid mesh it returns consists of the reparameterizations of the
    requested cut cells (each in the box of its cell), in the order of their ids, followed, unless the level set is reparameterized, by one lattice cell for every requested full cell. *)
Theorem C89_unmerged : forall g sign ccell cfacet D s O grad fresh sort esort range (S : bool) cells order,
  built g sign ccell cfacet D s -> range = 2 \/ range = 3 -> length (breaks g) = range -> Forall (cell_id g) cells -> 2 <= order -> sound O range ->
  (forall id b, In id cells -> get_cell_domain g id = Ret b -> large_box range b) ->
  let dim := if S then range - 1 else range in
  exists cut_ids full_ids cut full cut_boxes full_boxes m1 m, get_cells D Ccut = Ret cut_ids /\ get_cells D Cfull = Ret full_ids /\
    StronglySorted Z.le cut /\ Permutation cut (filter (fun id => if in_dec Z.eq_dec id cut_ids then true else false) cells) /\
    StronglySorted Z.le full /\ Permutation full (filter (fun id => if in_dec Z.eq_dec id full_ids then true else false) cells) /\
    Forall2 (fun id b => get_cell_domain g id = Ret b) cut cut_boxes /\ Forall2 (fun id b => get_cell_domain g id = Ret b) full full_boxes /\
    create_reparameterization O grad fresh sort esort range S D cells order false = Ret m /\
    valid dim (m_order m) (m_points m) (m_conn m) (m_wires m) /\ m_order m = order /\
    regions_added dim range (o_phi O) (10000 * / 2 ^ 52)%R cut_boxes (mk_mesh order [] [] []) m1 /\
    (if S then m = m1 else lattices_added (o_cheb O) range full_boxes m1 m) /\
    Forall (fun p => Exists (fun b => in_box b p) (if S then cut_boxes else cut_boxes ++ full_boxes)) (m_points m).
Proof.
  intros g sign ccell cfacet D s O grad fresh sort esort range S cells order HB Hr Hn HC Ho HO HL dim.
  destruct (create_ok g sign ccell cfacet D s O grad fresh sort esort range S cells order HB Hr Hn HC Ho HO HL) as (ca & fa & cu & fu & cb & fb & m1 & m & A1 & A2 & A3 & A4 & A5 & A6 & A7 & A8 & E & V & _ & B).
  exists ca, fa, cu, fu, cb, fb, m1, m. specialize (E false). cbn beta iota in E. repeat (split; [assumption|]). exact B.
Qed.
Print Assumptions C89_unmerged.
(** An order below 2 aborts. *)
Theorem C89_order : forall O grad fresh sort esort range S D cells order merge, order < 2 -> create_reparameterization O grad fresh sort esort range S D cells order merge = Abort.
Proof. intros. unfold create_reparameterization. replace (1 <? order) with false by (symmetry; apply Nat.ltb_ge; lia). reflexivity. Qed.
Print Assumptions C89_order.
(** Without a list of cells: all the cut cells and all the full cells of the domain, each once. *)
Lemma sorted_perm_unique : forall l1 l2 : list Z, StronglySorted Z.le l1 -> StronglySorted Z.le l2 -> Permutation l1 l2 -> l1 = l2.
Proof.
  induction l1 as [|x l1 IH]; intros l2 S1 S2 P; [apply Permutation_nil in P; subst; reflexivity|]. destruct l2 as [|y l2]; [apply Permutation_sym, Permutation_nil in P; discriminate|].
  inversion S1 as [|? ? S1' F1]; subst. inversion S2 as [|? ? S2' F2]; subst. rewrite Forall_forall in F1, F2.
  assert (x = y).
  { assert (Hx : In x (y :: l2)) by (apply (Permutation_in _ P); left; reflexivity). assert (Hy : In y (x :: l1)) by (apply (Permutation_in _ (Permutation_sym P)); left; reflexivity).
    destruct Hx as [Hx|Hx]; [auto|]. destruct Hy as [Hy|Hy]; [auto|]. apply F1 in Hy. apply F2 in Hx. lia. }
  subst y. apply Permutation_cons_inv in P. f_equal. apply IH; assumption.
Qed.
Theorem C89_all_cells : forall g sign ccell cfacet D s O grad fresh sort esort range (S : bool) order,
  built g sign ccell cfacet D s -> range = 2 \/ range = 3 -> length (breaks g) = range -> 2 <= order -> sound O range ->
  (forall id b, cell_id g id -> get_cell_domain g id = Ret b -> large_box range b) ->
  let dim := if S then range - 1 else range in
  exists cut full cut_boxes full_boxes m1 m, get_cells D Ccut = Ret cut /\ get_cells D Cfull = Ret full /\
    Forall2 (fun id b => get_cell_domain g id = Ret b) cut cut_boxes /\ Forall2 (fun id b => get_cell_domain g id = Ret b) full full_boxes /\
    create_reparameterization_all O grad fresh sort esort range S D order false = Ret m /\
    valid dim (m_order m) (m_points m) (m_conn m) (m_wires m) /\ m_order m = order /\
    regions_added dim range (o_phi O) (10000 * / 2 ^ 52)%R cut_boxes (mk_mesh order [] [] []) m1 /\
    (if S then m = m1 else lattices_added (o_cheb O) range full_boxes m1 m).
Proof.
  intros g sign ccell cfacet D s O grad fresh sort esort range S order HB Hr Hn Ho HO HL dim.
  pose proof (df_grid _ _ _ _ _ _ (built_facts _ _ _ _ _ _ HB)) as HD. set (cells := map Z.of_nat (seq 0 (Z.to_nat (M_Grid.num_cells g)))).
  assert (Hcells : forall id, In id cells <-> cell_id g id).
  { intros id. unfold cells, cell_id. rewrite in_map_iff. split; [intros (k & <- & Hk); apply in_seq in Hk; lia|]. intros Hid. exists (Z.to_nat id). split; [lia|]. apply in_seq. lia. }
  assert (HC : Forall (cell_id g) cells) by (apply Forall_forall; intros id; apply Hcells).
  destruct (C89_unmerged g sign ccell cfacet D s O grad fresh sort esort range S cells order HB Hr Hn HC Ho HO) as (ca & fa & cu & fu & cb & fb & m1 & m & A1 & A2 & A3 & A4 & A5 & A6 & A7 & A8 & E & V & Eo & RA & LA & _).
  { intros id b Hid. apply HL. apply Hcells. exact Hid. }
  assert (NC : NoDup cells) by (unfold cells; apply FinFun.Injective_map_NoDup; [intros a b; lia|apply seq_NoDup]).
  destruct (C13_body g sign ccell cfacet D s HB) as (F & Em & C & EF & EE & EC & SF & SE & SC & Hall & _). rewrite EC in A1. injection A1 as <-. rewrite EF in A2. injection A2 as <-.
  assert (Q : forall (L l : list Z), StronglySorted Z.lt L -> (forall id, In id L -> cell_id g id) -> StronglySorted Z.le l -> Permutation l (filter (fun id => if in_dec Z.eq_dec id L then true else false) cells) -> l = L).
  { intros L l SL HLc Sl P. assert (SLe : StronglySorted Z.le L) by (clear - SL; induction SL as [|x L S IH F]; constructor; [exact IH|eapply Forall_impl; [|exact F]; intros; cbn in *; lia]).
    assert (NL : NoDup L) by (clear - SL; induction SL as [|x L S IH F]; constructor; [rewrite Forall_forall in F; intros H; apply F in H; lia|exact IH]).
    apply sorted_perm_unique; [exact Sl|exact SLe|]. eapply Permutation_trans; [exact P|]. apply NoDup_Permutation; [apply NoDup_filter; exact NC|exact NL|]. intros id. rewrite filter_In, Hcells.
    destruct (in_dec Z.eq_dec id L); split; intros H; try tauto; try (split; [apply HLc; assumption|reflexivity]). destruct H as [_ H]; discriminate. }
  assert (cu = C) by (apply Q; try assumption; intros id HH; apply Hall; auto). assert (fu = F) by (apply Q; try assumption; intros id HH; apply Hall; auto). subst cu fu.
  exists C, F, cb, fb, m1, m. split; [exact EC|]. split; [exact EF|]. split; [exact A7|]. split; [exact A8|]. split; [unfold create_reparameterization_all; rewrite HD; exact E|]. repeat (split; [assumption|]). exact LA.
Qed.
Print Assumptions C89_all_cells.

(** C90: merging coincident points changes the ids of the points only: the merged mesh is valid, has the same cells, its points are points of the unmerged mesh, no two of them are
    within the tolerance (1e4 eps in all coordinates), and every point of a cell moves at most to a point linked to it by steps within the tolerance. *)
Theorem C90_merged : forall g sign ccell cfacet D s O grad fresh sort esort range (S : bool) cells order,
  built g sign ccell cfacet D s -> range = 2 \/ range = 3 -> length (breaks g) = range -> Forall (cell_id g) cells -> 2 <= order -> sound O range ->
  (forall id b, In id cells -> get_cell_domain g id = Ret b -> large_box range b) ->
  (forall points, sorting_routine points (sort points)) -> sorts_by edge_lt esort ->
  let dim := if S then range - 1 else range in let tol := (10000 * / 2 ^ 52)%R in
  exists m r, create_reparameterization O grad fresh sort esort range S D cells order false = Ret m /\
    create_reparameterization O grad fresh sort esort range S D cells order true = Ret r /\
    valid dim (m_order r) (m_points r) (m_conn r) (m_wires r) /\ m_order r = order /\ length (m_conn r) = length (m_conn m) /\ incl (m_points r) (m_points m) /\
    (2 <= length (m_points m) -> forall a b, a < length (m_points r) -> b < length (m_points r) -> a <> b ->
      exists d, d < range /\ (tol < Rabs (nth d (nth a (m_points r) []) 0 - nth d (nth b (m_points r) []) 0))%R) /\
    (forall k d, k < length (m_conn m) -> d < range ->
      (Rabs (nth d (nth (nth k (m_conn r) 0%nat) (m_points r) []) 0 - nth d (nth (nth k (m_conn m) 0%nat) (m_points m) []) 0) <= INR (length (m_points m) - 1) * tol)%R).
Proof.
  intros g sign ccell cfacet D s O grad fresh sort esort range S cells order HB Hr Hn HC Ho HO HL Hs He dim tol.
  destruct (create_ok g sign ccell cfacet D s O grad fresh sort esort range S cells order HB Hr Hn HC Ho HO HL) as (_ & _ & _ & _ & _ & _ & _ & m & _ & _ & _ & _ & _ & _ & _ & _ & E & V & _ & Eo & _).
  assert (Ht : (0 <= tol)%R) by (unfold tol; assert (0 < / 2 ^ 52)%R by (apply Rinv_0_lt_compat, pow_lt; lra); lra).
  assert (Hrng : 0 < range) by lia. exists m. pose proof (E true) as ET. pose proof (E false) as EF. cbn beta iota in ET, EF. change (10000 * eps)%R with tol in ET.
  destruct (Nat.lt_ge_cases (length (m_points m)) 2) as [Hlt|Hge].
  - assert (EM : merge_coincident_points (sort (m_points m)) esort range m tol = Ret m) by (unfold merge_coincident_points; replace (length (m_points m) <? 2) with true by (symmetry; apply Nat.ltb_lt; exact Hlt); reflexivity).
    rewrite EM in ET. exists m. split; [exact EF|]. split; [exact ET|]. split; [exact V|]. split; [exact Eo|]. split; [reflexivity|]. split; [apply incl_refl|]. split; [lia|].
    intros k d _ _. rewrite Rminus_diag_eq, Rabs_R0 by reflexivity. apply Rmult_le_pos; [apply pos_INR|exact Ht].
  - destruct (merge_points_ok (sort (m_points m)) esort dim range m tol V Ht Hrng (Hs (m_points m)) He Hge) as (ls & w & Hw & EM & _). cbv zeta in EM. rewrite EM in ET.
    eexists. split; [exact EF|]. split; [exact ET|]. split; [eapply (valid_merge_points (sort (m_points m)) esort dim range m tol _ V Ht Hrng (Hs (m_points m)) He); exact EM|].
    destruct (make_unique_spec (sort (m_points m)) range (m_points m) tol [] Ht Hrng (Hs (m_points m))) as (reps & _ & Rlt & Enew & Ln & Rk & Hlt & Hco & Hback).
    set (otn := snd (make_points_unique (sort (m_points m)) range (m_points m) tol [])) in *. cbn [m_order m_points m_conn m_wires]. rewrite Enew.
    split; [exact Eo|]. split; [apply map_length|]. split; [intros p Hp; apply in_map_iff in Hp as (r & <- & Hr'); apply nth_In; apply Rlt; exact Hr'|].
    assert (Nr : forall k, k < length reps -> nth k (map (fun r => nth r (m_points m) []) reps) [] = nth (nth k reps 0) (m_points m) []).
    { intros k Hk. rewrite (nth_indep _ [] (nth 0 (m_points m) [])) by (rewrite map_length; exact Hk). apply (map_nth (fun r => nth r (m_points m) [])). }
    split.
    + intros _ a b Ha Hb Hab. rewrite map_length in Ha, Hb. rewrite !Nr by assumption. set (i := nth a reps 0). set (j := nth b reps 0). assert (Hi : i < length (m_points m)) by (apply Rlt, nth_In; exact Ha). assert (Hj : j < length (m_points m)) by (apply Rlt, nth_In; exact Hb).
      assert (Hdec : (exists d, d < range /\ (tol < Rabs (nth d (nth i (m_points m) []) 0 - nth d (nth j (m_points m) []) 0))%R) \/ coincident range (m_points m) tol i j).
      { clear - Hrng. unfold coincident, pt_coord. generalize range. intros n. induction n as [|n [(d & Hd & IH)|IH]]; [right; intros d Hd; lia|left; exists d; split; [lia|exact IH]|].
        destruct (Rle_dec (Rabs (nth n (nth i (m_points m) []) 0%R - nth n (nth j (m_points m) []) 0%R)) tol) as [H|H]; [right|left; exists n; split; [lia|lra]].
        intros d Hd. destruct (Nat.eq_dec d n) as [->|]; [exact H|apply IH; lia]. }
      destruct Hdec as [H|H]; [exact H|]. exfalso. apply Hab. rewrite <- (Rk a Ha), <- (Rk b Hb). apply Hco; assumption.
    + intros k d Hk Hd. assert (Hk' : nth k (m_conn m) 0 < length (m_points m)) by (destruct V as (_ & _ & _ & Fc & _); rewrite Forall_forall in Fc; apply Fc, nth_In; exact Hk).
      replace (nth k (map (fun i => nth i otn 0) (m_conn m)) 0) with (nth (nth k (m_conn m) 0) otn 0).
      2:{ rewrite (nth_indep (map (fun i => nth i otn 0) (m_conn m)) 0 (nth 0 otn 0)) by (rewrite map_length; exact Hk). symmetry. apply (map_nth (fun i => nth i otn 0)). }
      set (i := nth k (m_conn m) 0) in *. specialize (Hlt i Hk'). rewrite Nr by exact Hlt. apply (Hback (nth (nth i otn 0) reps 0) i); [apply Rlt, nth_In; exact Hlt|exact Hk'| |exact Hd]. apply Rk. exact Hlt.
Qed.
Print Assumptions C90_merged.

(** The hypotheses are met: every built domain on the grid of 2 unit cells (C13_nonvacuous), with the oracles of P_General. *)
Example ex_create : forall sign ccell cfacet, exists g D s m, built g sign ccell cfacet D s /\
  create_reparameterization ex_oracles (fun _ => [1; 1]%R) (fun _ _ => [0; 0]%R) (fun _ _ l => l) (fun l => l) 2 false D [1; 0; 1]%Z 3 false = Ret m.
Proof.
  intros sign ccell cfacet. destruct demo_usable as (g & Hu & Hn & Hb & Hd). destruct (build_domain_ok g sign ccell cfacet (fun m => m) Hu map_order_id) as (D & s & E & _).
  assert (HB : built g sign ccell cfacet D s) by (split; [exact Hu|exists (fun m => m); split; [apply map_order_id|exact E]]). exists g, D, s.
  destruct (C89_unmerged g sign ccell cfacet D s ex_oracles (fun _ => [1; 1]%R) (fun _ _ => [0; 0]%R) (fun _ _ l => l) (fun l => l) 2 false [1; 0; 1]%Z 3 HB (or_introl eq_refl) Hb) as (_ & _ & _ & _ & _ & _ & _ & m & _ & _ & _ & _ & _ & _ & _ & _ & EE & _); try lia.
  - repeat constructor; unfold cell_id; lia.
  - exact ex_sound.
  - destruct Hd as [H0 H1]. intros id b Hid Eb. assert (Hb' : b = mk_box [0; 0]%R [1; 1]%R \/ b = mk_box [1; 0]%R [2; 1]%R).
    { destruct Hid as [<-|[<-|[<-|[]]]]; [rewrite H1 in Eb|rewrite H0 in Eb|rewrite H1 in Eb]; injection Eb as <-; auto. }
    destruct Hb' as [-> | ->]; (split; [reflexivity|]; split; [reflexivity|]; intros [|[|d]] Hd; try lia; cbn [bmin bmax nth]; lra).
  - exists m. split; assumption.
Qed.
